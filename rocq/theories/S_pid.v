(** Vocabulary of C83: the PID file, who runs, and what happens one after the other. *)
From Verif Require Import Bytes S_text S_fw M_pid.
From Coq Require Import Init.Byte List ZArith Bool.
Import ListNotations.
Open Scope Z_scope.

(** The process numbers of Linux *)
Definition pid (p : Z) : Prop := 1 <= p <= 4194304.
(** The file says that [p] runs: it begins with the number, which is followed by the end of the
    line or has seven digits. *)
Definition names (f : option bytes) (p : Z) : Prop :=
  exists d r, f = Some (d ++ r) /\ numeral p d /\ (zlen d = 7 \/ (zlen d < 7 /\ hd x00 r = x0a)).

(** A daemon that has come through its start *)
Definition running (p : Z) (w : world) : Prop := exists fg, w_proc w p = Some (Ours (Daemon fg) Running).
(** No process of these programs, no lock *)
Definition idle (w : world) : Prop := w_lock w = None /\ forall p g a, w_proc w p <> Some (Ours g a).

(** One after the other, in any order; [P] holds whenever something happens *)
Inductive history (P : world -> event -> Prop) : list event -> world -> world -> Prop :=
| h_none w : history P [] w w
| h_more e l w w1 w2 : P w e -> happens e w = Some w1 -> history P l w1 w2 -> history P (e :: l) w w2.
(** Programs are started with numbers that exist *)
Definition proper (w : world) (e : event) : Prop :=
  match e with Starts p _ => pid p | Steps _ q => pid q | _ => True end.
(** Besides, no daemon gets SIGHUP, and none is started under the number an earlier one has left
    in the file. *)
Definition calm (w : world) (e : event) : Prop :=
  proper w e /\
  match e with
  | Reloads _ => False
  | Steps p _ => forall fg, w_proc w p = Some (Ours (Daemon fg) Begin) -> ~ names (w_file w) p
  | _ => True
  end.
