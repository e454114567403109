(** * bbs.go:270-293: registered drivers and opened databases *)
From Verif Require Import M_Base M_Path.

(** A connector is a pointer to a pttbbs.Connector, whose only field is the home
    directory (pttbbs/pttbbs.go:12-14).  Pointers are numbers; [reg_home] is the
    heap.  A DB (bbs.go:141-143) holds one connector pointer. *)
Record registry := Registry {
  reg_drivers : bytes -> option nat;      (* bbs.go:270 var drivers *)
  reg_home : nat -> bytes }.

(** bbs.go:272-275 Register *)
Definition Register (r : registry) (name : bytes) (c : nat) : registry :=
  Registry (fun n => if beqb n name then Some c else reg_drivers r n) (reg_home r).

(** bbs.go:278-293 Open.  Connector.Open never fails. *)
Definition DB_Open (r : registry) (name dsn : bytes) : registry * outcome nat :=
  match reg_drivers r name with
  | None => (r, Err ENotFound)
  | Some c =>
      (Registry (reg_drivers r) (fun d => if Nat.eqb d c then Connector_Open dsn else reg_home r d), Ok c)
  end.

(** The home directory a database reads from. *)
Definition db_home (r : registry) (db : nat) : bytes := reg_home r db.

(** The registry after package initialisation, pttbbs/pttbbs.go:16-18: one
    connector with an empty home. *)
Definition initial_registry : registry :=
  Register (Registry (fun _ => None) (fun _ => [])) (str "pttbbs") 0.
