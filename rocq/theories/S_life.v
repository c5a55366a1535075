(** Vocabulary of C84: what happens to a daemon, and when a signal is in time. *)
From Verif Require Import Bytes M_life.
From Coq Require Import List ZArith Bool.
Import ListNotations.
Open Scope Z_scope.

(** A sequence of signals and steps *)
Inductive history : list event -> state -> state -> Prop :=
| h_none s : history [] s s
| h_more e l s s1 s2 : happens e s = Some s1 -> history l s1 s2 -> history (e :: l) s s2.
Definition ended (s : state) : Prop := exists c, s_at s = Ended c.
(** The number of steps in a sequence *)
Definition steps (l : list event) : nat := List.length (filter (fun e => match e with Step _ => true | _ => false end) l).

(** How many packets came, how many errors, how often SIGHUP *)
Fixpoint packets (l : list event) : Z :=
  match l with [] => 0 | Step (Packets n) :: r => n + packets r | _ :: r => packets r end.
Fixpoint errors (l : list event) : Z :=
  match l with [] => 0 | Step Error :: r => 1 + errors r | _ :: r => errors r end.
Fixpoint hups (l : list event) : nat :=
  match l with [] => 0%nat | Signal SIGHUP :: r => S (hups r) | _ :: r => hups r end.
(** One of the three signals, a fatal error, or the end of the input *)
Definition reason (e : event) : Prop :=
  match e with Signal SIGHUP | Signal SIGINT | Signal SIGTERM | Step (Fails _) | Step Left => True | _ => False end.
(** Steps in which nothing goes wrong and no packet comes *)
Definition easy (e : event) : Prop :=
  match e with Step Plain | Step Left | Step (NewSettings _ _) => True | Step _ => False | Signal _ => True end.
(** Steps in which nothing goes wrong and packets may come, and no signals *)
Definition still (e : event) : Prop := e = Step Plain \/ exists n, e = Step (Packets n).

(** The places at which the arrival of a signal is forgotten: after the daemon has looked for it and
    before it forgets that there was any signal, and while it reads its settings again. *)
Definition late (g : signal) (p : place) : Prop :=
  match p with
  | Stop3 => g = SIGINT
  | Stop4 => g = SIGINT \/ g = SIGTERM
  | Stop5 | Stop6 | Stop7 | Stop8 | Stop9 => True
  | Config => True
  | Clear n => (n <= match g with SIGHUP => 1 | SIGINT => 2 | _ => 3 end)%nat
  | Hand4 => g <> SIGHUP
  | _ => False
  end.
