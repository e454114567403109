(** * Specification: posting on a disk that fails *)
From Verif Require Import M_Base M_Sys M_File M_BbsTool S_World S_Path S_File S_Store S_Create S_BbsTool S_Post.
Open Scope N_scope.

Definition said_posted (n : bytes) : outcome (list out) := Ok [Out (str "new filename: " ++ n)].
Definition said_not_added : outcome (list out) := Ok [OutErr (str "AddArticleRecordFileRecord error: ") (ESys EIO)].
Definition said_not_written : outcome (list out) := Ok [OutErr (str "WriteBoardArticleFile error:  ") (ESys EIO)].

(** What one attempt to post has said, the bytes the index has got, and the new file. *)
Record deed := Deed { d_msg : message; d_said : outcome (list out); d_piece : bytes; d_file : option (bytes * bytes) }.
Inductive deed_ok (cd : codec) : deed -> Prop :=
(** everything was done *)
| deed_posted m n v : file_encoded cd (listed m n) v -> deed_ok cd (Deed m (said_posted n) v (Some (n, enc cd (m_text m))))
(** an empty file is there, and any part of the record *)
| deed_not_added m n v k : file_encoded cd (listed m n) v -> deed_ok cd (Deed m said_not_added (firstn k v) (Some (n, [])))
(** the article is listed, with any part of its text *)
| deed_not_written m n v k : file_encoded cd (listed m n) v -> deed_ok cd (Deed m said_not_written v (Some (n, firstn k (enc cd (m_text m)))))
(** no free name was found as long as it was looked for *)
| deed_searching m : deed_ok cd (Deed m Diverge [] None).

Definition told (d : deed) : message * outcome (list out) := (d_msg d, d_said d).
(** what the index of the board [b] has got *)
Definition pieces_of (b : bytes) (ds : list deed) : bytes :=
  concat (map d_piece (filter (fun d => beqb (m_board (d_msg d)) b) ds)).
(** the new files: board, name, text *)
Definition files_of (ds : list deed) : list (bytes * bytes * bytes) :=
  flat_map (fun d => match d_file d with Some (n, t) => [(m_board (d_msg d), n, t)] | None => [] end) ds.
