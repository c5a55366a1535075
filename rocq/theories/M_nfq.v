(** Model of server/nfq_capture.c, the reception of packets through a queue of netfilter, and of
    what server/process_packet.c:84-90 does for it.
    Simplified: signals are delivered at the beginning of a round; the library makes out of what
    was received the packets that are given; the queue could be set up; recv does not say -2.
    Not modelled: the TCP server, messages, libnetfilter_queue. *)
From Verif Require Import Bytes M_util M_message M_codec M_cipher M_ctx M_access M_replay M_cycle M_incoming M_packet M_fw M_fwinit M_daemon.
From Verif Require M_life.
From Coq Require Import Init.Byte List ZArith Bool.
Import ListNotations.
Open Scope Z_scope.

(** A packet in the queue: the hook it was taken at and its bytes, which begin with the IP header;
    the clock and the digest file when it is processed. *)
Record queued := mkQ { q_hook : Z; q_bytes : bytes; q_env : env; q_later : Z }.
Inductive verdict := Drop | Accept.
Definition NF_IP_LOCAL_IN : Z := 1.                                   (* linux/netfilter_ipv4.h *)
Definition MAX_NFQ_ERRORS_BEFORE_BAIL : Z := 100.                     (* nfq_capture.h:37 *)
(** process_packet for a packet of the queue, nfq_capture.c:71-73: pkt_len is its length, and
    data_link_offset, which only pcap_capture.c sets, is 0. *)
Definition seen (f : bytes) : outcome (option (bytes * pkt_info)) := process_packet 0 (zlen f) f.
(** nfq_capture.c:79 *)
Definition verdict_on (q : queued) : verdict := if q_hook q =? NF_IP_LOCAL_IN then Drop else Accept.

(** The variables of nfq_capture, the counter of packets, and the array packet_data *)
Record vars := mkVars { v_flags : M_life.flags; v_break : bool; v_errors : Z; v_packets : Z; v_array : bytes }.
Definition with_array (a : bytes) (v : vars) : vars := mkVars (v_flags v) (v_break v) (v_errors v) (v_packets v) a.
Definition with_errors (n : Z) (v : vars) : vars := mkVars (v_flags v) (v_break v) n (v_packets v) (v_array v).
(** nfq_capture.c:174-222: the signals; the TCP server is not in use *)
Definition look (v : vars) : vars :=
  let f := v_flags v in
  let f := if M_life.f_chld f then M_life.set_chld false f else f in
  let '(f, brk) :=
    if M_life.f_got f then
      if M_life.f_int f || M_life.f_term f || M_life.f_hup f then (f, true)
      else if M_life.f_usr1 f || M_life.f_usr2 f then (M_life.set_got false (M_life.set_usr1 false (M_life.set_usr2 false f)), v_break v)
      else (M_life.set_got false f, v_break v)
    else (f, v_break v) in
  mkVars f brk (v_errors v) (v_packets v) (v_array v).
(** nfq_capture.c:236-245: the counter, to which the number of bytes is added *)
Definition count (limit n : Z) (v : vars) : vars :=
  let c := u32 (v_packets v + n) in
  mkVars (v_flags v) (v_break v || (negb (limit =? 0) && (limit <=? c))) (v_errors v) c (v_array v).

(** What recv says: [n] bytes, with these packets; an error; nothing there *)
Inductive recv := Got (n : Z) (ps : list queued) | Failed | Nothing.

Section Machine.
Variable W : Type.
Variable exec : W -> list bytes -> W * ended * bytes.
Variable H : hashes.
Variable G : gpg.
Variable cf : conf.
Variable fc : fwconf.
Variable resolve : bytes -> option bytes.
Variable limit : Z.                                                   (* packet_ctr_limit, 0: none *)
Let turn1 := take W exec H G cf fc resolve.

(** process_nfq_packet, nfq_capture.c:49-83, for the packets in turn *)
Fixpoint packets (ps : list queued) (v : vars) (w : world W) : outcome (list verdict * vars * world W) :=
  match ps with
  | [] => Ok ([], v, w)
  | q :: r =>
      get o <- seen (q_bytes q);
      get (v, w) <- match o with
                    | None => Ok (v, w)
                    | Some (data, i) =>
                        let p := deliver (v_array v) data i in
                        get (_, w) <- turn1 (Receive (q_env q) p (q_later q)) w;
                        Ok (with_array (k_buf p) v, w)
                    end;
      get (x, v, w) <- packets r v w;
      Ok (verdict_on q :: x, v, w)
  end.

(** How a round ends: the loop goes on, it is left, the program ends *)
Inductive progress := On (v : vars) (w : world W) | Left (v : vars) (w : world W) | GaveUp (v : vars) (w : world W).
(** check_firewall_rules(opts, chk_rm_all), nfq_capture.c:274; chk_rm_all is always 0 *)
Definition finish (now : Z) (v : vars) (w : world W) : outcome progress :=
  get (_, w) <- turn1 (Sweep false now) w; Ok (On v w).
(** A round of the loop, nfq_capture.c:172-277 *)
Definition round (sigs : list M_life.signal) (r : recv) (now : Z) (v : vars) (w : world W) : outcome (list verdict * progress) :=
  let v := mkVars (fold_left (fun f g => M_life.sig_handler g f) sigs (v_flags v)) (v_break v) (v_errors v) (v_packets v) (v_array v) in
  let v := look v in
  match r with
  | Got n ps =>
      get (x, v, w) <- packets ps v w;
      get y <- finish now (count limit n v) w; Ok (x, y)
  | Failed =>
      if v_errors v >? MAX_NFQ_ERRORS_BEFORE_BAIL then Ok ([], GaveUp v w)
      else get y <- finish now (with_errors (v_errors v + 1) v) w; Ok ([], y)
  | Nothing =>
      if v_break v then Ok ([], Left v w)
      else get y <- finish now (with_errors 0 v) w; Ok ([], y)
  end.
(** The loop *)
Fixpoint rounds (l : list (list M_life.signal * recv * Z)) (v : vars) (w : world W) : outcome (list verdict * progress) :=
  match l with
  | [] => Ok ([], On v w)
  | (sigs, r, now) :: t =>
      get (x, y) <- round sigs r now v w;
      match y with
      | On v w => get (x', y) <- rounds t v w; Ok (x ++ x', y)
      | _ => Ok (x, y)
      end
  end.
End Machine.
Arguments On {W}. Arguments Left {W}. Arguments GaveUp {W}.
(** nfq_capture.c:90-99: the loop begins; got_signal and the others were cleared before *)
Definition begun (array : bytes) : vars := mkVars M_life.no_flags false 0 0 array.
