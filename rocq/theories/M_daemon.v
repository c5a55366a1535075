(** Model of the composition of the daemon: received packets, the firewall they change, and the
    passes that remove what has expired: the loops of server/pcap_capture.c:201-337 and
    server/udp_server.c:113-224, and the round of server/fwknopd.c:main, 80-320. *)
From Verif Require Import Bytes M_util M_message M_codec M_cipher M_ctx M_access M_replay M_cycle M_incoming M_packet M_fw M_fwinit.
From Coq Require Import Init.Byte List ZArith Bool.
Import ListNotations.
Open Scope Z_scope.

Section Machine.
Variable W : Type.
Variable exec : W -> list bytes -> W * ended * bytes.
Variable H : hashes.
Variable G : gpg.
Variable cf : conf.
Variable fc : fwconf.
Variable resolve : bytes -> option bytes.

(** The NAT settings of the stanza acc, number [k] of the list, incoming_spa.c:1223 *)
Definition nat_of (acc : list stanza) (k : Z) : nat_conf :=
  match nth_error acc (Z.to_nat (k - 1)) with
  | Some a => a_nat a
  | None => mkNat false [] 0 false false false [] false
  end.
(** process_spa_request(opts, acc, &spadat), incoming_spa.c:1223: what is granted changes the
    firewall.  The clock is read again (fw_util_iptables.c:1486); [now] is what it says then. *)
Fixpoint grants (acc : list stanza) (now : Z) (effs : list effect) (s : state W) : outcome (state W) :=
  match effs with
  | [] => Ok s
  | Grant k d :: r => get s <- process_spa_request W exec fc resolve (nat_of acc k) d now s; grants acc now r s
  | _ :: r => grants acc now r s
  end.

(** What the daemon does: it takes a packet; it looks for expired rules; it makes or removes its
    chains when it starts or ends; it starts anew with an access file and reads the digest file. *)
Inductive turn :=
| Receive (en : env) (p : packet) (later : Z)
| Sweep (all : bool) (now : Z)
| Build
| Raze
| Reread (acc : list stanza).
(** What it knows, and the firewall *)
Definition world : Type := sstate * state W.
(** One turn; the packet that was received is noted with the stanzas in force. *)
Definition arrival : Type := list stanza * env * packet * Z.
Definition take (x : turn) (w : world) : outcome (list arrival * world) :=
  let '(st, s) := w in
  match x with
  | Receive en p later =>
      get (effs, st') <- incoming_spa H G cf en p st;
      get s' <- grants (st_acc st) later effs s;
      Ok ([(st_acc st, en, p, later)], (st', s'))
  | Sweep all now => get s' <- check_firewall_rules W exec fc all now s; Ok ([], (st, s'))
  | Build => get (_, m) <- create_fw_chains W exec fc (fst s) (snd s); Ok ([], (st, (fst s, m)))
  | Raze => get m <- delete_all_chains W exec fc (fst s) (snd s); Ok ([], (st, (fst s, m)))
  | Reread acc => Ok ([], (mkSt acc (cache_init (snd (st_replay st))) [], s))
  end.
Fixpoint turns (l : list turn) (w : world) : outcome (list arrival * world) :=
  match l with
  | [] => Ok ([], w)
  | x :: r => get (a, w) <- take x w; get (b, w) <- turns r w; Ok (a ++ b, w)
  end.
End Machine.
