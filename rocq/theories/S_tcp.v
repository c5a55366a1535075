(** Vocabulary for the theorems about the TCP server. *)
From Verif Require Import Bytes M_tcp.
From Coq Require Import List ZArith Bool.
Import ListNotations.

(** The events of the daemon itself; the others are those of its TCP servers. *)
Definition own {rule} (e : event rule) : bool :=
  match e with Hup _ | Init _ | Fork _ | Grant _ _ | Stop _ | Crash _ => true | _ => false end.

(** Nothing goes wrong at this moment: the TCP server waits for connections when a SIGHUP comes, has
    gone when the daemon has paused, and no call of the system fails. *)
Definition calm {rule} (d : daemon rule) (e : event rule) : Prop :=
  match e with
  | Hup _ => d_stage rule d = Up -> exists p, d_server rule d = Some p /\ phase_of p (d_children rule d) = Some Waiting
  | Init _ => d_stage rule d = Pausing -> d_children rule d = []
  | Crash _ | Fails _ _ => False
  | Bind _ _ free => free = true
  | _ => True
  end.
Inductive calm_run {rule} (flush : bool) : daemon rule -> list (event rule) -> Prop :=
| calm_none d : calm_run flush d []
| calm_more d e l : calm d e -> calm_run flush (step rule flush d e) l -> calm_run flush d (e :: l).

(** The rounds of the loop in which nothing fails and the daemon is there *)
Definition good_round (r : round) : Prop := match r with SelectFails | Quiet false | Connection false => False | _ => True end.
Definition connection (r : round) : bool := match r with Connection _ => true | _ => false end.
