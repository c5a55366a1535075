(** Model of the signals of the daemon and of its main loop: sig_handler, set_sig_handlers and
    sig_do_stop, server/sig_handler.c:50-173, the loop of main and handle_signals,
    server/fwknopd.c:76-334 and 601-648, the loop of pcap_capture, server/pcap_capture.c:192-334,
    and of run_udp_server, server/udp_server.c:115-234.  Signals may come between any two accesses
    to the flags.
    Simplified: the handlers are installed already (before the first installation a signal has the
    action of the system); what the daemon does with packets and rules between the accesses is one
    step whose outcome is given; the handler is one step (if one handler interrupts another the
    flags are the same in the end).  The flags are not volatile in the source: that the compiler
    reads them where they are written down is assumed.
    Not modelled: the TCP server, nfq_capture (see M_nfq), messages. *)
From Verif Require Import Bytes.
From Coq Require Import List ZArith Bool.
Import ListNotations.
Open Scope Z_scope.

Inductive signal := SIGHUP | SIGINT | SIGTERM | SIGUSR1 | SIGUSR2 | SIGCHLD.
(** The flags, sig_handler.c:38-45; [f_got]: got_signal is not 0 *)
Record flags := mkFlags { f_got : bool; f_hup : bool; f_int : bool; f_term : bool; f_usr1 : bool; f_usr2 : bool; f_chld : bool }.
Definition set_got (b : bool) (f : flags) := mkFlags b (f_hup f) (f_int f) (f_term f) (f_usr1 f) (f_usr2 f) (f_chld f).
Definition set_hup (b : bool) (f : flags) := mkFlags (f_got f) b (f_int f) (f_term f) (f_usr1 f) (f_usr2 f) (f_chld f).
Definition set_int (b : bool) (f : flags) := mkFlags (f_got f) (f_hup f) b (f_term f) (f_usr1 f) (f_usr2 f) (f_chld f).
Definition set_term (b : bool) (f : flags) := mkFlags (f_got f) (f_hup f) (f_int f) b (f_usr1 f) (f_usr2 f) (f_chld f).
Definition set_usr1 (b : bool) (f : flags) := mkFlags (f_got f) (f_hup f) (f_int f) (f_term f) b (f_usr2 f) (f_chld f).
Definition set_usr2 (b : bool) (f : flags) := mkFlags (f_got f) (f_hup f) (f_int f) (f_term f) (f_usr1 f) b (f_chld f).
Definition set_chld (b : bool) (f : flags) := mkFlags (f_got f) (f_hup f) (f_int f) (f_term f) (f_usr1 f) (f_usr2 f) b.
(** sig_handler, sig_handler.c:50-80 *)
Definition sig_handler (s : signal) (f : flags) : flags :=
  let f := set_got true f in
  match s with
  | SIGHUP => set_hup true f | SIGINT => set_int true f | SIGTERM => set_term true f
  | SIGUSR1 => set_usr1 true f | SIGUSR2 => set_usr2 true f | SIGCHLD => set_chld true f
  end.

Inductive mode := Pcap | Udp.
(** Where the daemon is: what it does next *)
Inductive place :=
| Config                       (* reads its settings: main, fwknopd.c:84-130 *)
| Clear (n : nat)              (* set_sig_handlers clears the flags in turn, sig_handler.c:92-97 *)
| Prepare                      (* main from there to the loop, fwknopd.c:140-300 *)
| Chld1 | Chld2                (* pcap_capture.c:197 and 221: tests and clears got_sigchld *)
| Stop1                        (* sig_do_stop, sig_handler.c:155: got_signal *)
| Stop2 | Stop3 | Stop4        (* 157: got_sigint, got_sigterm, got_sighup *)
| Stop5 | Stop6                (* 161: got_sigusr1, got_sigusr2 *)
| Stop7 | Stop8                (* 165: clears got_sigusr2, then got_sigusr1 *)
| Stop9                        (* 166 and 169: clears got_signal *)
| Receive                      (* pcap_dispatch, pcap_capture.c:230; the rest of the loop of the UDP server *)
| Rest                         (* expired rules, cycles, sleep: pcap_capture.c:293-333 *)
| Hand1 | Hand2 | Hand3        (* handle_signals, fwknopd.c:605, 607, 609 *)
| Hand4                        (* 612-616: frees the settings, sleeps a second, clears got_sighup *)
| Ended (cleanup : bool).      (* clean_exit, with or without FW_CLEANUP *)
Record state := mkState {
  s_at : place; s_flags : flags; s_mode : mode; s_break : bool (* pending_break *); s_errors : Z (* pcap_errcnt *);
  s_packets : Z (* packet_ctr *); s_limit : Z (* packet_ctr_limit, 0: none *); s_reads : nat (* how often the settings were read again *) }.
Definition go (p : place) (s : state) : state :=
  mkState p (s_flags s) (s_mode s) (s_break s) (s_errors s) (s_packets s) (s_limit s) (s_reads s).
Definition flag (f : flags -> flags) (s : state) : state :=
  mkState (s_at s) (f (s_flags s)) (s_mode s) (s_break s) (s_errors s) (s_packets s) (s_limit s) (s_reads s).
Definition with_break (s : state) : state :=
  mkState (s_at s) (s_flags s) (s_mode s) true (s_errors s) (s_packets s) (s_limit s) (s_reads s).
Definition with_errors (n : Z) (s : state) : state :=
  mkState (s_at s) (s_flags s) (s_mode s) (s_break s) n (s_packets s) (s_limit s) (s_reads s).
Definition with_packets (n : Z) (s : state) : state :=
  mkState (s_at s) (s_flags s) (s_mode s) (s_break s) (s_errors s) n (s_limit s) (s_reads s).

(** The outcomes of a step.  [Plain]: it does what is expected.  [NewSettings]: the files could be
    read, with this way to receive packets and this limit.  [Fails c]: an error that ends the
    program, with the firewall cleaned up or not.  [Packets n]: that many were received;
    [Error]: pcap_dispatch said -1; [Left]: it said -2. *)
Inductive outcome := Plain | NewSettings (m : mode) (limit : Z) | Fails (cleanup : bool) | Packets (n : Z) | Error | Left.
Definition MAX_PCAP_ERRORS_BEFORE_BAIL : Z := 100.                    (* pcap_capture.h:36 *)
(** The beginning of the loops: the UDP server looks at the signals first *)
Definition loop (s : state) : state := go (match s_mode s with Pcap => Chld1 | Udp => Stop1 end) s.
(** sig_do_stop has said that the loop is to end, pcap_capture.c:224-228; udp_server.c:117-123 and
    main, fwknopd.c:262-271, which then leaves its loop as well *)
Definition do_stop (s : state) : state :=
  match s_mode s with Pcap => go Receive (with_break s) | Udp => go (Ended true) s end.
(** pcap_capture.c:230-290 and udp_server.c:127-231; the counters of packets *)
Definition over (s : state) : bool := negb (s_limit s =? 0) && (s_limit s <=? s_packets s).
Definition receive (o : outcome) (s : state) : option state :=
  match s_mode s, o with
  | Pcap, Packets n =>
      if n >? 0
      then let s := with_packets (s_packets s + n) s in Some (go Rest (if over s then with_break s else s))
      else None
  | Pcap, Error =>
      if s_errors s >? MAX_PCAP_ERRORS_BEFORE_BAIL then Some (go (Ended true) s) else Some (go Rest (with_errors (s_errors s + 1) s))
  | Pcap, Fails true => Some (go (Ended true) s)                      (* EXIT_AT_INTF_DOWN, line 263 *)
  | Pcap, Left => Some (go Hand1 s)
  | Pcap, Plain => if s_break s then Some (go Hand1 s) else Some (go Rest (with_errors 0 s))
  | Udp, Plain => Some (go Stop1 s)                                   (* nothing came, or select was interrupted *)
  | Udp, Packets n =>
      if n =? 1
      then let s := with_packets (s_packets s + 1) s in Some (go (if over s then Ended true else Stop1) s)
      else None
  | Udp, Fails true => Some (go (Ended true) s)                       (* fwknopd.c:262-266 *)
  | _, _ => None
  end.
(** One step.  None: this outcome is not one of this step. *)
Definition step (o : outcome) (s : state) : option state :=
  let f := s_flags s in
  match s_at s with
  | Config => match o with
              | NewSettings m l => Some (mkState (Clear 0) f m false 0 0 l (S (s_reads s)))
              | Fails false => Some (go (Ended false) s)
              | _ => None
              end
  | Prepare => match o with Plain => Some (loop s) | Fails c => Some (go (Ended c) s) | _ => None end
  | Receive => receive o s
  | Ended _ => None
  | p =>
    match o with
    | Plain =>
      Some (match p with
            | Clear 0 => go (Clear 1) (flag (set_got false) s)
            | Clear 1 => go (Clear 2) (flag (set_hup false) s)
            | Clear 2 => go (Clear 3) (flag (set_int false) s)
            | Clear 3 => go (Clear 4) (flag (set_term false) s)
            | Clear 4 => go (Clear 5) (flag (set_usr1 false) s)
            | Clear _ => go Prepare (flag (set_usr2 false) s)
            | Chld1 => go (if f_chld f then Chld2 else Stop1) s
            | Chld2 => go Stop1 (flag (set_chld false) s)
            | Stop1 => go (if f_got f then Stop2 else Receive) s
            | Stop2 => if f_int f then do_stop s else go Stop3 s
            | Stop3 => if f_term f then do_stop s else go Stop4 s
            | Stop4 => if f_hup f then do_stop s else go Stop5 s
            | Stop5 => go (if f_usr1 f then Stop7 else Stop6) s
            | Stop6 => go (if f_usr2 f then Stop7 else Stop9) s
            | Stop7 => go Stop8 (flag (set_usr2 false) s)
            | Stop8 => go Stop9 (flag (set_usr1 false) s)
            | Stop9 => go Receive (flag (set_got false) s)
            | Rest => loop s
            | Hand1 => go (if f_got f then Hand2 else Ended true) s
            | Hand2 => go Hand3 (flag (set_got false) s)
            | Hand3 => go (if f_hup f then Hand4 else Ended true) s
            | Hand4 => go Config (flag (set_hup false) s)
            | p => go p s
            end)
    | _ => None
    end
  end.
(** What happens: a signal is delivered, or the daemon goes a step further *)
Inductive event := Signal (g : signal) | Step (o : outcome).
Definition happens (e : event) (s : state) : option state :=
  match e with
  | Signal g => match s_at s with Ended _ => None | _ => Some (flag (sig_handler g) s) end
  | Step o => step o s
  end.
Definition no_flags : flags := mkFlags false false false false false false false.
(** The daemon after its handlers were installed for the first time *)
Definition started (m : mode) (limit : Z) : state := mkState Prepare no_flags m false 0 0 limit 0.
