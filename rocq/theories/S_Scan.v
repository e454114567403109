(** * Specification of searching all boards *)
From Verif Require Import M_Base M_Sys M_File M_Board M_Utf8 M_Time M_Comment M_Scan.
From Verif Require Import S_World S_Path S_File S_Board S_Store S_Utf8 S_Time S_Login S_Ansi S_Comment.
Open Scope N_scope.

(** The object has the content [old]; [None] when there is no such file (and nothing on
    the way to it is a file). *)
Definition content_of (w : world) (wd : bytes) (o : object) (old : option bytes) : Prop :=
  exists p rp, object_path wd o = Ok p /\ names w p rp /\ look w rp = option_map EFile old /\
    (old = None -> forall k d, look w (firstn k rp) <> Some (EFile d)).
(** The boards in the order of the board file. *)
Definition boards_are (cd : codec) (w : world) (wd : bytes) (bs : list BoardHeader) : Prop :=
  exists d ss, content_of w wd Boards (Some d) /\ slots 256 d ss /\ Forall2 (board_decoded cd) ss bs.
(** The records of a board's index in order; none when there is no index. *)
Definition articles_are (cd : codec) (w : world) (wd b : bytes) (l : list FileHeader) : Prop :=
  exists old ss, content_of w wd (Index b) old /\ slots 128 (old_or_empty old) ss /\ Forall2 (file_decoded cd) ss l.
Definition searched (cd : codec) (w : world) (wd : bytes) (h : BoardHeader) (l : list FileHeader) : Prop :=
  (bh_name h = str "ALLPOST" /\ l = []) \/ (bh_name h <> str "ALLPOST" /\ articles_are cd w wd (bh_name h) l).

(** [r] is [l] without the elements that fail [P] *)
Inductive selected {A} (P : A -> Prop) : list A -> list A -> Prop :=
| SelNil : selected P [] []
| SelKeep a l r : P a -> selected P l r -> selected P (a :: l) (a :: r)
| SelDrop a l r : ~ P a -> selected P l r -> selected P (a :: l) r.
(** the articles of [user] on one board *)
Definition posts (user : bytes) (h : BoardHeader) (l : list FileHeader) (r : list UserArticle) : Prop :=
  exists l', selected (fun a => fh_owner a = user) l l' /\
    r = map (fun a => UArticle (bh_name h) (fh_title a) (fh_owner a) (fh_filename a)) l'.

(** ** The comments of one article *)
(** the lines that are looked at: all, or those before the first of 64 KiB *)
Definition lines_seen (d : bytes) (ls : list bytes) : Prop :=
  exists raw, Forall short_line raw /\ Forall2 without_cr raw ls /\
    (text d raw \/ exists l rest, text d (raw ++ l :: rest) /\ ~ short_line l).
Definition not_comment_line (l : bytes) : Prop := exists t, filtered l t /\ no_comment t.
Definition comment_line (l owner : bytes) (tm : time) (txt : bytes) : Prop :=
  exists t m st, filtered l t /\ found t owner m st /\ spells_short st tm /\ reported m st txt.
Definition impossible_date (l : bytes) : Prop :=
  exists t o m st, filtered l t /\ found t o m st /\ forall tm, ~ spells_short st tm.
(** the comment lines in order, with the floors [k], [k+1], ... *)
Inductive numbered (b f : bytes) : N -> list bytes -> list UserComment -> Prop :=
| NumNil k : numbered b f k [] []
| NumSkip k l ls cs : not_comment_line l -> numbered b f k ls cs -> numbered b f k (l :: ls) cs
| NumComment k l owner tm txt ls cs :
    comment_line l owner tm txt -> numbered b f (k + 1) ls cs ->
    numbered b f k (l :: ls) (Comment_ k tm owner [] b f txt :: cs).

Definition comments_are (w : world) (wd b f : bytes) (cs : list UserComment) : Prop :=
  exists d ls, content_of w wd (Article b f) (Some d) /\ lines_seen d ls /\ N.of_nat (length ls) < 2 ^ 32 /\ numbered b f 1 ls cs.
(** why the comments of an article cannot be read *)
Definition comments_fail (w : world) (wd b f : bytes) (e : err) : Prop :=
  (content_of w wd (Article b f) None /\ e = ESys ENOENT) \/
  (exists d ls1 l ls2 cs, content_of w wd (Article b f) (Some d) /\ lines_seen d (ls1 ++ l :: ls2) /\
     N.of_nat (length (ls1 ++ l :: ls2)) < 2 ^ 32 /\
     numbered b f 1 ls1 cs /\ impossible_date l /\ e = EBadTime).
(** the comments of [user] under the articles of one board *)
Definition remarks (w : world) (wd user b : bytes) (l : list FileHeader) (r : list UserComment) : Prop :=
  exists css rs, Forall2 (fun a cs => comments_are w wd b (fh_filename a) cs) l css /\
    Forall2 (selected (fun c => uc_owner c = user)) css rs /\ r = concat rs.
