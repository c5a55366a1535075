(** Model of the TCP server of the daemon (ENABLE_TCP_SERVER): run_tcp_server, server/tcp_server.c,
    its places in main (server/fwknopd.c:273-288, 317-331), in handle_signals (609-617) and in
    pcap_capture (server/pcap_capture.c:195-222), and clean_exit, server/utils.c:222-243.
    Simplified: the rules of the daemon are a list, or nothing if its chains do not exist (how
    iptables gets there is in M_fwinit); a child process that calls clean_exit removes the chains in
    one step.  Not modelled: expiry, messages. *)
From Verif Require Import Bytes M_extcmd.
From Coq Require Import List ZArith Bool.
Import ListNotations.
Open Scope Z_scope.

(** ** The process of the TCP server *)
(** The results of socket, setsockopt, fcntl (twice), bind and listen, tcp_server.c:85-157 *)
Record setup := mkSetup { u_socket : bool; u_reuse : bool; u_getfl : bool; u_setfl : bool; u_bind : bool; u_listen : bool }.
(** One round of the loop, tcp_server.c:164-236: select fails; nothing happens for 200 ms, and the
    parent process exists or not (kill(ppid, 0) with ESRCH); select returns without the socket being
    readable; a connection, which accept takes or not *)
Inductive round := SelectFails | Quiet (parent : bool) | Unset | Connection (accepted : bool).
(** The loop: the result if it is left, and the number of connections served *)
Fixpoint serve (l : list round) (n : Z) : option Z * Z :=
  match l with
  | [] => (None, n)
  | SelectFails :: _ => (Some (-1), n)
  | Quiet parent :: r => if parent then serve r n else (Some (-1), n)
  | Unset :: r => serve r n
  | Connection accepted :: r => if accepted then serve r (n + 1) else (Some (-1), n)
  end.
(** run_tcp_server in the child, after the rounds [l]; None: it is still there *)
Definition tcp_child (s : setup) (l : list round) : option Z * Z :=
  if u_socket s && u_reuse s && u_getfl s && u_setfl s && u_bind s && u_listen s then serve l 0 else (Some (-1), 0).

(** Who called run_tcp_server: main or, for a restart, pcap_capture *)
Inductive caller := FromMain | FromCapture.
(** What the child process does when run_tcp_server returns in it: fwknopd.c:281-288 cleans up for a
    negative result; pcap_capture.c:217 ignores the result.  [Captures]: it goes on with the
    loop of pcap_capture, as another daemon *)
Inductive fate := CleansUp | Captures.
Definition returned (c : caller) (rv : Z) : fate :=
  match c with FromMain => if rv <? 0 then CleansUp else Captures | FromCapture => Captures end.

(** ** The test for a dead TCP server *)
(** pcap_capture.c:197-222: waitpid(0, &status, WNOHANG) finds the ended child [which] or none;
    a restart follows if it is the TCP server *)
Definition restarts (t : table) (server which : Z) : bool :=
  (0 <? server) && (which =? server) && existsb (fun x => (fst x =? which) && match snd x with Some _ => true | None => false end) t.

(** ** The daemon and its TCP servers *)
(** Between the calls of the system: not yet bound; in select; elsewhere in the loop (accept, the
    second of usleep); returned with -1 *)
Inductive phase := Forked | Waiting | Serving | Leaving.
Inductive stage := Up | Pausing | Ready | Down.     (* running; in the second of handle_signals; firewall prepared, server not yet forked; ended *)

Section Rules.
Variable rule : Type.
(** The rules in the chains of the daemon; [d_server]: tcp_server_pid; [d_next]: the next process id *)
Record daemon := mkDaemon { d_rules : option (list rule); d_stage : stage; d_server : option nat; d_children : list (nat * phase); d_next : nat }.
Definition put_rules (r : option (list rule)) (d : daemon) := mkDaemon r (d_stage d) (d_server d) (d_children d) (d_next d).
Definition put_stage (s : stage) (d : daemon) := mkDaemon (d_rules d) s (d_server d) (d_children d) (d_next d).
Definition put_children (l : list (nat * phase)) (d : daemon) := mkDaemon (d_rules d) (d_stage d) (d_server d) l (d_next d).

Inductive event :=
| Hup                          (* handle_signals with SIGHUP, fwknopd.c:609-617 *)
| Init                         (* config_init, which forgets tcp_server_pid (config_init.c:1077), and fw_initialize *)
| Fork                         (* run_tcp_server in the parent *)
| Grant (r : rule)             (* a packet opens access *)
| Stop                         (* the end of main, fwknopd.c:315-331 *)
| Crash                        (* the daemon is killed *)
| Bind (p : nat) (free : bool) (* the child calls bind; [free]: no other program has the port *)
| Client (p : nat)             (* a connection comes *)
| Served (p : nat)             (* usleep is over *)
| Fails (p : nat)              (* select or accept fails *)
| Timeout (p : nat)            (* select returns after 200 ms; the parent is looked for *)
| Clean (p : nat).             (* clean_exit in the child *)

Definition phase_of (p : nat) (l : list (nat * phase)) : option phase :=
  match find (fun x => Nat.eqb (fst x) p) l with Some x => Some (snd x) | None => None end.
Definition set_phase (p : nat) (ph : phase) (l : list (nat * phase)) : list (nat * phase) :=
  map (fun x => if Nat.eqb (fst x) p then (p, ph) else x) l.
Definition without (p : nat) (l : list (nat * phase)) : list (nat * phase) := filter (fun x => negb (Nat.eqb (fst x) p)) l.
Definition listens (x : nat * phase) : bool := match snd x with Waiting | Serving => true | _ => false end.
(** SIGTERM to the TCP server: it has the handler of the daemon, which sets a flag.  select is
    interrupted and fails, elsewhere the signal has no effect; usleep ends early *)
Definition term (p : nat) (l : list (nat * phase)) : list (nat * phase) :=
  match phase_of p l with
  | Some Waiting => set_phase p Leaving l
  | Some Serving => set_phase p Waiting l
  | _ => l
  end.
Definition of_server (f : nat -> list (nat * phase) -> list (nat * phase)) (d : daemon) : list (nat * phase) :=
  match d_server d with Some p => f p (d_children d) | None => d_children d end.

(** [flush]: FLUSH_IPT_AT_EXIT is not N.  An event that cannot happen in a state has no effect. *)
Definition step (flush : bool) (d : daemon) (e : event) : daemon :=
  match e with
  | Hup => match d_stage d with Up => put_stage Pausing (put_children (of_server term d) d) | _ => d end
  | Init => match d_stage d with
            | Pausing => mkDaemon (Some []) Ready None (d_children d) (d_next d)
            | _ => d
            end
  | Fork => match d_stage d with
            | Ready => mkDaemon (d_rules d) Up (Some (d_next d)) (d_children d ++ [(d_next d, Forked)]) (S (d_next d))
            | _ => d
            end
  | Grant r => match d_stage d with
               | Up => put_rules (Some (match d_rules d with Some l => l ++ [r] | None => [r] end)) d
               | _ => d
               end
  | Stop => match d_stage d with
            | Up => put_rules (if flush then None else d_rules d) (put_stage Down (put_children (of_server without d) d))
            | _ => d
            end
  | Crash => put_stage Down d
  | Bind p free =>
      match phase_of p (d_children d) with
      | Some Forked => put_children (set_phase p (if free && negb (existsb listens (d_children d)) then Waiting else Leaving) (d_children d)) d
      | _ => d
      end
  | Client p => match phase_of p (d_children d) with Some Waiting => put_children (set_phase p Serving (d_children d)) d | _ => d end
  | Served p => match phase_of p (d_children d) with Some Serving => put_children (set_phase p Waiting (d_children d)) d | _ => d end
  | Fails p => match phase_of p (d_children d) with
               | Some Waiting | Some Serving => put_children (set_phase p Leaving (d_children d)) d
               | _ => d
               end
  | Timeout p => match phase_of p (d_children d), d_stage d with
                 | Some Waiting, Down => put_children (set_phase p Leaving (d_children d)) d
                 | _, _ => d
                 end
  | Clean p => match phase_of p (d_children d) with
               | Some Leaving => put_rules (if flush then None else d_rules d) (put_children (without p (d_children d)) d)
               | _ => d
               end
  end.
Definition run (flush : bool) (d : daemon) (l : list event) : daemon := fold_left (step flush) l d.
(** The daemon has just read its settings for the first time and prepared its firewall. *)
Definition fresh : daemon := mkDaemon (Some []) Ready None [] 1.
End Rules.
