(** * Specification: creating articles *)
From Verif Require Import M_Base M_Sys M_Path M_File M_FileOps M_DB S_World S_Path S_Digits.
Open Scope N_scope.

(** The two ways of creating an article: an empty one (DB.CreateArticleRecord),
    and one whose file starts with the header lines (NewArticleRecordWithMap). *)
Inductive ccmd :=
| NewEmpty (b owner date title : bytes)
| NewHeaded (b owner date title : bytes).
Definition ccmd_board (c : ccmd) : bytes := match c with NewEmpty b _ _ _ | NewHeaded b _ _ _ => b end.
(** the text the new file holds *)
Definition ccmd_text (c : ccmd) : bytes :=
  match c with
  | NewEmpty _ _ _ _ => []
  | NewHeaded b owner date title =>
      str "作者: " ++ owner ++ str " 看板: " ++ b ++ [x0a] ++ str "標題: " ++ title ++ str " " ++ [x0a] ++ str "時間: " ++ date ++ [x0a]
  end.
(** the record of the new article under the name [n]; its time is that of Go's zero Time *)
Definition ccmd_record (c : ccmd) (n : bytes) : FileHeader :=
  match c with NewEmpty _ owner date title | NewHeaded _ owner date title =>
    MkFileHeader n (-62135596800)%Z 0%Z owner date title 0%Z 0%Z 0 0 0 0 0 end.
Definition ccmd_prog (fuel : nat) (wd : bytes) (c : ccmd) : prog (outcome FileHeader) :=
  match c with
  | NewEmpty b owner date title => CreateArticleRecord fuel wd b owner date title
  | NewHeaded b owner date title => NewArticleRecordWithMap fuel wd (Some owner) (Some date) (Some title) (Some b)
  end.

(** A client that creates articles one after the other. *)
Fixpoint creator_from (fuel : nat) (wd : bytes) (cs : list ccmd) (got : list (ccmd * outcome FileHeader))
    : prog (list (ccmd * outcome FileHeader)) :=
  match cs with
  | [] => Ret (rev got)
  | c :: cs' => bind (ccmd_prog fuel wd c) (fun r => creator_from fuel wd cs' ((c, r) :: got))
  end.
Definition creator (fuel : nat) (wd : bytes) (cs : list ccmd) := creator_from fuel wd cs [].

(** The articles created: board, file name and text of every success. *)
Definition created (rs : list (ccmd * outcome FileHeader)) : list (bytes * bytes * bytes) :=
  flat_map (fun x => match snd x with Ok f => [(ccmd_board (fst x), fh_filename f, ccmd_text (fst x))] | _ => [] end) rs.
(** what the finished clients of a pool have created *)
Definition pool_created (ps : list (prog (list (ccmd * outcome FileHeader)))) : list (bytes * bytes * bytes) :=
  flat_map (fun p => match p with Ret rs => created rs | _ => [] end) ps.

(** A fresh article name: "M.", the time, ".A.", three hexadecimal digits. *)
Definition fresh_name (n : bytes) : Prop :=
  exists t r ts rs, r < 4096 /\ decimal t ts /\ hex3 r rs /\ n = str "M." ++ ts ++ str ".A." ++ rs.

(** Where a board keeps its files: home/boards/<first letter>/<board>; the first
    byte is written as a character, so it takes two bytes when it is not ASCII. *)
Definition board_dir (w : world) (wd b : bytes) : rpath :=
  home_dir (w_cwd w) wd ++ [str "boards"; flat_map fmt_c (firstn 1 b); b].
Definition board_entry (w : world) (wd b n : bytes) : rpath := board_dir w wd b ++ [n].

(** The name the n-th attempt from now will try: the clock is read again, and
    a new random number drawn, for every attempt; with a fixed date only the
    random number changes. *)
Definition candidate (w : world) (n : nat) : bytes :=
  str "M." ++ fmt_d (w_clock w (w_tick w + n)%nat) ++ str ".A." ++ fmt_3X (w_rand w (w_rtick w + n)%nat mod 4096).
Definition dated_candidate (w : world) (n : nat) : bytes :=
  str "M." ++ fmt_d (w_clock w (w_tick w)) ++ str ".A." ++ fmt_3X (w_rand w (w_rtick w + n)%nat mod 4096).
(** The clock reaches every time. *)
Definition clock_advances (w : world) : Prop := forall t : Z, exists n, (t <= w_clock w (w_tick w + n)%nat)%Z.
