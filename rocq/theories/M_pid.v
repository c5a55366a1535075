(** Model of the PID file of the daemon and of the commands that use it: setup_pid, stop_fwknopd,
    restart_fwknopd, status_fwknopd, daemonize_process, write_pid_file and get_running_pid,
    server/fwknopd.c:510-599, 650-715 and 872-1051, as processes that run at the same time.
    Simplified: open, read and close in get_running_pid are one step; the file can be opened,
    locked and written, belongs to the user and is changed by these programs only; its name does
    not change.  Not modelled: messages. *)
From Verif Require Import Bytes M_base64 M_util M_message M_codec M_cycle.
From Coq Require Import Init.Byte List ZArith Bool.
Import ListNotations.
Open Scope Z_scope.

Definition PID_BUFLEN : Z := 8.                       (* server/fwknopd.h:83 *)
(** The text written to the file, fwknopd.c:988-989, and write(2) at the beginning of a file
    that is not truncated (O_WRONLY|O_CREAT, line 943) *)
Definition pid_text (p : Z) : bytes := snprintf PID_BUFLEN (dec_i p ++ [x0a]).
Definition overwrite (new old : bytes) : bytes := new ++ zdrop (zlen new) old.
(** get_running_pid, fwknopd.c:1011-1051, on the contents of the file; 0: none *)
Definition read_pid (f : option bytes) : Z :=
  match f with
  | None | Some [] => 0
  | Some s => match strtol_wrapper (cstr (ztake (PID_BUFLEN - 1) s)) 0 8388608 with
              | (n, e) => if strtol_ok e then n else 0
              end
  end.

(** The programs: the daemon ([fg]: in the foreground), fwknopd -S, fwknopd -K, fwknopd -R *)
Inductive goal := Daemon (fg : bool) | Status | Stop | Restart.
(** The next thing a process does *)
Inductive place :=
| Begin                        (* get_running_pid; for the daemon in setup_pid, line 523 *)
| Forking                      (* fork, line 881 *)
| Opening                      (* open with O_CREAT, line 942 *)
| Locking                      (* lockf, line 963 *)
| Looking                      (* the lock is held: get_running_pid, line 976 *)
| Writing                      (* line 994 *)
| Running                      (* after setup_pid *)
| Signalling (r : Z)           (* kill(r, ...), lines 568 and 659 *)
| Waiting (r : Z) (n : nat).   (* kill(r, 0), lines 660-679: n times before *)
(** A process is one of these, or any other program *)
Inductive proc := Ours (g : goal) (a : place) | Other.
Inductive sig := HUP | TERM | KILL.
(** What is seen: a signal and what the process it goes to is; what -S says *)
Inductive seen := Sent (to : Z) (s : sig) (who : option proc) | Says (r : option Z).
Record world := mkWorld { w_file : option bytes; w_lock : option Z; w_proc : Z -> option proc; w_seen : list seen }.

Definition put (p : Z) (x : option proc) (f : Z -> option proc) : Z -> option proc := fun q => if q =? p then x else f q.
(** The lock of a process ends when it closes any descriptor of the file, and when it ends *)
Definition unlock (p : Z) (l : option Z) : option Z :=
  match l with Some h => if h =? p then None else l | None => None end.
Definition at_place (p : Z) (g : goal) (a : place) (w : world) : world :=
  mkWorld (w_file w) (w_lock w) (put p (Some (Ours g a)) (w_proc w)) (w_seen w).
Definition ends (p : Z) (w : world) : world :=
  mkWorld (w_file w) (unlock p (w_lock w)) (put p None (w_proc w)) (w_seen w).
Definition see (x : seen) (w : world) : world := mkWorld (w_file w) (w_lock w) (w_proc w) (w_seen w ++ [x]).
(** get_running_pid closes the file *)
Definition closed (p : Z) (w : world) : world := mkWorld (w_file w) (unlock p (w_lock w)) (w_proc w) (w_seen w).
(** The end of write_pid_file: setup_pid, lines 525-548, daemonize_process, lines 899-911, and
    status_fwknopd, lines 585-599 *)
Definition after_write (p : Z) (g : goal) (r : Z) (w : world) : world :=
  match g with
  | Status => ends p (see (Says (if r >? 0 then Some r else None)) w)
  | _ => if r >? 0 then ends p w else at_place p g Running w
  end.
(** One step of the process [p]; [q] is the pid fork returns.  None: it cannot be made. *)
Definition next (p q : Z) (w : world) : option world :=
  match w_proc w p with
  | Some (Ours g a) =>
      match a with
      | Begin =>
          let r := read_pid (w_file w) in
          let w := closed p w in
          match g with
          | Daemon fg => Some (if r =? p then at_place p g Running w else at_place p g (if fg then Opening else Forking) w)
          | Status => Some (at_place p g Opening w)
          | Stop | Restart => Some (if r >? 0 then at_place p g (Signalling r) w else ends p w)
          end
      | Forking => match w_proc w q with None => if q =? p then None else Some (at_place q g Opening (ends p w)) | Some _ => None end
      | Opening => Some (at_place p g Locking (mkWorld (match w_file w with None => Some [] | f => f end) (w_lock w) (w_proc w) (w_seen w)))
      | Locking =>
          match w_lock w with
          | Some h => if h =? p then Some (at_place p g Writing w) else Some (at_place p g Looking w)
          | None => Some (at_place p g Writing (mkWorld (w_file w) (Some p) (w_proc w) (w_seen w)))
          end
      | Looking => let r := read_pid (w_file w) in
                   Some (after_write p g (if r =? 0 then -1 else r) (closed p w))
      | Writing => Some (after_write p g 0 (mkWorld (match w_file w with Some f => Some (overwrite (pid_text p) f) | None => None end)
                                                    (w_lock w) (w_proc w) (w_seen w)))
      | Running => None
      | Signalling r =>
          match g with
          | Restart => Some (ends p (see (Sent r HUP (w_proc w r)) w))
          | _ => Some (at_place p g (Waiting r 0) (see (Sent r TERM (w_proc w r)) w))
          end
      | Waiting r n =>
          if (n <? 5)%nat
          then Some (match w_proc w r with None => ends p w | Some _ => at_place p g (Waiting r (S n)) w end)
          else Some (ends p (ends r (see (Sent r KILL (w_proc w r)) w)))
      end
  | _ => None
  end.

(** What happens: a program is started with the pid [p]; a process makes a step; a running daemon
    gets SIGHUP and begins again (main, lines 80-320); a process ends for whatever reason. *)
Inductive event := Starts (p : Z) (x : proc) | Steps (p q : Z) | Reloads (p : Z) | Dies (p : Z).
Definition new_proc (x : proc) : bool :=
  match x with Ours Status Opening | Ours (Daemon _) Begin | Ours Stop Begin | Ours Restart Begin | Other => true | _ => false end.
Definition happens (e : event) (w : world) : option world :=
  match e with
  | Starts p x => match w_proc w p with
                  | None => if new_proc x then Some (mkWorld (w_file w) (w_lock w) (put p (Some x) (w_proc w)) (w_seen w)) else None
                  | Some _ => None
                  end
  | Steps p q => next p q w
  | Reloads p => match w_proc w p with Some (Ours g Running) => Some (at_place p g Begin w) | _ => None end
  | Dies p => match w_proc w p with Some _ => Some (ends p w) | None => None end
  end.
