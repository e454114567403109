(** * Concrete file systems for the examples *)
From Coq Require Import Lia ZifyBool ZifyNat ZifyN.
From Verif Require Import M_Base M_Sys S_World P_Base.
Open Scope N_scope.

(** A file system given by its directory entries and file contents. *)
Fixpoint lookup (l : list (rpath * node)) (p : rpath) : option node :=
  match l with
  | [] => None
  | (q, n) :: l' => if rp_eq_dec p q then Some n else lookup l' p
  end.
Definition world_of (l : list (rpath * node)) (data : list bytes) : world :=
  World [] (lookup l) (fun i => nth (N.to_nat i) data []) (N.of_nat (length data))
    (fun _ => None) 3 (fun n => (1600000000 + Z.of_nat n)%Z) (fun n => N.of_nat n) 0 0.

Definition rp_eqb (p q : rpath) : bool := if rp_eq_dec p q then true else false.
Definition entry_ok (l : list (rpath * node)) (n : N) (e : rpath * node) : bool :=
  match fst e with
  | [] => false
  | p => match removelast p with
         | [] => true
         | q => match lookup l q with Some NDir => true | _ => false end
         end
  end &&
  match snd e with
  | NDir => true
  | NFile i => (i <? n) && forallb (fun e' => match snd e' with NFile j => negb (i =? j) || rp_eqb (fst e) (fst e') | NDir => true end) l
  end.
Definition saneb (l : list (rpath * node)) (n : N) : bool := forallb (entry_ok l n) l.

Lemma lookup_in l p n : lookup l p = Some n -> In (p, n) l.
Proof.
  induction l as [|[q m] l IH]; cbn; [discriminate|].
  destruct (rp_eq_dec p q) as [->|]; [intros [= <-]; now left|]. intros H. right. auto.
Qed.
Lemma saneb_sane l data : saneb l (N.of_nat (length data)) = true -> sane (world_of l data).
Proof.
  intros H. unfold saneb in H. rewrite forallb_forall in H. constructor; cbn.
  - intros p i E. apply lookup_in in E. apply H in E. unfold entry_ok in E. cbn in E.
    apply andb_prop in E. destruct E as [_ E]. apply andb_prop in E. lia.
  - intros p q i E E'. apply lookup_in in E, E'. apply H in E. unfold entry_ok in E. cbn in E.
    apply andb_prop in E. destruct E as [_ E]. apply andb_prop in E. destruct E as [_ E].
    rewrite forallb_forall in E. apply E in E'. cbn in E'. rewrite N.eqb_refl in E'. cbn in E'.
    unfold rp_eqb in E'. destruct (rp_eq_dec p q); [assumption|discriminate].
  - intros p c E. destruct (lookup l (p ++ [c])) as [n|] eqn:G; [|contradiction].
    apply lookup_in in G. apply H in G. unfold entry_ok in G. cbn [fst snd] in G.
    apply andb_prop in G. destruct G as [G _].
    destruct (p ++ [c]) as [|x r] eqn:Q; [destruct p; discriminate|].
    rewrite <- Q, removelast_last in G. destruct p as [|y p]; [now left|]. right.
    destruct (lookup l (y :: p)) as [[|j]|]; congruence.
  - reflexivity.
  - discriminate.
Qed.

(** One BBS home with two boards (one with a two-record index), a user with a
    draft, a board file with two boards. *)
Definition dirs_of (ps : list (list string)) : list (rpath * node) := map (fun p => (map str p, NDir)) ps.
From Verif Require Import M_File M_Board S_Example.
Definition rp (l : list string) : rpath := map str l.
Definition sample_tree : list (rpath * node) :=
  dirs_of [["bbs"]; ["bbs"; "boards"]; ["bbs"; "boards"; "S"]; ["bbs"; "boards"; "S"; "SYSOP"];
           ["bbs"; "boards"; "t"]; ["bbs"; "boards"; "t"; "test"];
           ["bbs"; "boards"; "d"]; ["bbs"; "boards"; "d"; "dir"]; ["bbs"; "boards"; "d"; "dir"; ".DIR"];
           ["bbs"; "home"]; ["bbs"; "home"; "p"]; ["bbs"; "home"; "p"; "pichu"]]%string
  ++ [(rp ["bbs"; "boards"; "S"; "SYSOP"; ".DIR"]%string, NFile 0);
      (rp ["bbs"; "boards"; "S"; "SYSOP"; "M.1.A.001"]%string, NFile 1);
      (rp ["bbs"; "home"; "p"; "pichu"; "buf.0"]%string, NFile 2);
      (rp ["bbs"; ".BRD"]%string, NFile 3)].
(** the second record has money and a file mode *)
Definition moded_file : bytes := put 120 8 [x05; x00; x00; x00; x01; x00; x00; x00] (MarshalToByte id_codec sample_file).
Definition sample_data : list bytes :=
  [ MarshalToByte id_codec sample_file ++ moded_file;
    str "hello"; str "draft text";
    BoardHeader_MarshalBinary id_codec sample_board ++ BoardHeader_MarshalBinary id_codec sample_board ].
Definition sample_world : world := world_of sample_tree sample_data.
Definition sample_wd : bytes := str "/bbs".

Lemma sample_sane : sane sample_world.
Proof. apply saneb_sane. vm_compute. reflexivity. Qed.
