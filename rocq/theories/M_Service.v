(** * The web service as a whole: serverlet/main.go:19-37
    The tables are read once, before listening; every request is answered from them. *)
From Verif Require Import M_Base M_Sys M_Path M_Web M_Mux M_Json M_Jwt M_Form.

(** serverlet/main.go:22 bbs.Open("pttbbs", "file://../home/bbs") *)
Definition serverlet_home : bytes := Connector_Open (str "file://../home/bbs").

(** What comes back.  net/http answers 400 itself, and closes the connection when a
    handler panics (server.go conn.serve); the other connections go on. *)
Inductive response :=
| BadRequest
| Redirect (path : bytes)
| Response (status : N) (body : bytes)
| Closed.
Definition respond (old : bool) (zone : Z -> Z) (sign : bytes -> bytes) (s : server) (r : raw) : response :=
  match arrive old r with
  | None => BadRequest
  | Some q =>
      match handle s q with
      | Ok (Moved p) => Redirect p
      | Ok (Answer rep) => Response (status rep) (body_text zone (SignedString sign) (content rep))
      | _ => Closed
      end
  end.

(** The program started on the file system [w]; each request comes with the file system as
    it is by then, which the handlers do not look at. *)
Definition session (old : bool) (zone : Z -> Z) (sign : bytes -> bytes) (cd : codec) (fuel : nat)
    (w : world) (requests : list (world * raw)) : outcome (list response) :=
  match snd (run (start cd fuel serverlet_home) w) with
  | Ok s => Ok (map (fun r => respond old zone sign s (snd r)) requests)
  | Err e => Err e
  | Panic => Panic
  | Diverge => Diverge
  end.
