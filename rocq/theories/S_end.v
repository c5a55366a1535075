(** The vocabulary of the way from the command line of the client to the firewall of the server. *)
From Verif Require Import Bytes M_util M_codec M_cipher M_ctx M_access M_replay M_cycle M_incoming M_packet M_client S_base64 S_text S_codec S_cipher S_ctx S_replay S_conf S_cycle M_send M_fw M_fwinit M_daemon
  S_client S_incoming S_packet S_send S_fw S_fwinit S_daemon.
From Coq Require Import Init.Byte List ZArith Bool.
Import ListNotations.
Open Scope Z_scope.

(** The client: its options are such as the command line gives, and ask for access, not for a
    command; no port is replaced. *)
Record caller (v : M_client.world) (w : network) (o : options) (x : route) : Prop := {
  ca_options : options_ok o;
  ca_world : world_ok v;
  ca_route : route_ok w x;
  ca_command : o_command o = [];
  ca_ports : o_nat_rand o = false /\ o_nat_port o = 0 }.
(** The server: it has the stanza [a], number [i], for this client, with the same keys; the clocks
    agree; the packet, which is not too long, is not known yet, and no earlier stanza takes it. *)
Record expects (H : hashes) (G : gpg) (cf : conf) (v : M_client.world) (o : options) (x : route) (en : env) (p : packet) (st : sstate) (i : nat) (a : stanza) : Prop := {
  ex_config : Forall usable (st_acc st);
  ex_cache : cache_ok (fst (st_replay st));
  ex_file : e_writable en = true;
  ex_test : cf_test cf = false;
  ex_stanza : nth_error (st_acc st) i = Some a;
  ex_agreed : agreed o a;
  ex_addressed : addressed a p;
  ex_expiry : ~ S_incoming.expired (e_now en) a;
  ex_cycle : a_cycle a = None;
  ex_ports : ports_allowed a (o_access o);
  ex_source : o_ip o <> $ "0.0.0.0" \/ a_require_src a = false;
  ex_http : x_proto x = HTTP -> http_served cf x;
  ex_message : forall m, wants v o m -> fits (or_default (o_digest o) 3) m /\ 1000000000 <= s_time m /\ passes cf (e_now en) a m /\
                 forall n, sent_length o m n -> n < 400;
  ex_new : forall data, carries cf p data -> ~ remembered (fst (st_replay st)) (packet_digest H data) /\
             (forall fwd, closable H G p fwd data (st_acc st)) /\
             forall fwd j a' e, (j < i)%nat -> nth_error (st_acc st) j = Some a' -> ~ lets H G cf (e_now en) p fwd data a' (1 + Z.of_nat j) e }.
(** The address for which access is opened: the one given with the request or, if that is 0.0.0.0,
    the one from which the packet came or which the web proxy reports. *)
Definition opened_address (cf : conf) (a : stanza) (o : options) (p : packet) (ip : bytes) : Prop :=
  exists fwd src, forwarded_read cf p fwd /\ dotted src (p_src (k_info p)) /\ opened_for a (o_ip o) fwd src ip.
(** The time for which it is opened *)
Definition open_time (a : stanza) (o : options) (t : Z) : Prop := duration a (if 0 <? o_timeout o then o_timeout o else 0) t.
Definition towards (fc : fwconf) (p : packet) (dst : bytes) : Prop :=
  if f_use_dst fc then dotted dst (p_dst (k_info p)) else dst = $ "0.0.0.0/0".
