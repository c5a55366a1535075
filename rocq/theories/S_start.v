(** The vocabulary of the properties of the start of the daemon.  What a chain setting of
    fwknopd.conf says is written without reference to M_start and to the reader in M_fw. *)
From Verif Require Import Bytes S_text S_access S_conf S_incoming M_util M_packet M_incoming M_conf M_fw M_accfile M_start S_fw S_fwinit S_accfile S_daemon.
From Coq Require Import Init.Byte List ZArith Bool.
Import ListNotations.
Open Scope Z_scope.

(** ** The text of a chain setting *)
(** [s] is the name [f] with spaces before and after *)
Definition padded (f s : bytes) : Prop := exists a b, s = a ++ f ++ b /\ Forall (eq " "%byte) a /\ Forall (eq " "%byte) b.
Definition name_text (f : bytes) : Prop := Forall (fun c => letter_or_digit c \/ c = "_"%byte) f.
(** Six fields with commas between them: target, table, from-chain, the position of the jump
    rule, to-chain, and a position that is not used *)
Definition chain_line (v target table from : bytes) (jump : Z) (to : bytes) : Prop :=
  exists fs js ps p, v = join ($ ",") fs /\ Forall2 padded [target; table; from; js; to; ps] fs /\
    Forall name_text [target; table; from; to; js; ps] /\
    integer_text js jump /\ 0 <= jump <= 65536 /\ integer_text ps p /\ 0 <= p <= 65536.
(** The chain is as the text says. *)
Definition as_written (v : bytes) (c : chain) : Prop :=
  forall target table from jump to, chain_line v target table from jump to ->
    Forall (fun n => zlen n <= 63) [target; table; from; to] ->
    c_target c = target /\ c_table c = table /\ c_from c = from /\ c_jump c = jump /\ c_to c = to.

(** What is accepted: letters, digits, underscores, spaces and commas, five of them *)
Definition chain_char (c : byte) : Prop := letter_or_digit c \/ In c [" "%byte; ","%byte; "_"%byte].
Definition chain_shape (v : bytes) : Prop := Forall chain_char v /\ count_occ Byte.byte_eq_dec v ","%byte = 5%nat.

(** ** Settings *)
(** What fwknopd.conf says about [n], or the default *)
Definition says_or (cf : config) (n d v : bytes) : Prop := cf n = Some v \/ (cf n = None /\ v = d).
Definition enabled (cf : config) (n : bytes) : Prop := exists v, says_or cf n ($ "N") v /\ S_incoming.on v.
Definition nat_on (cf : config) : Prop := enabled cf ($ "ENABLE_IPT_FORWARDING") \/ enabled cf ($ "ENABLE_IPT_LOCAL_NAT").
(** The chains: number, setting, default, and when it is used *)
Definition chain_table (cf : config) : list (nat * bytes * bytes * Prop) :=
  [ (0%nat, $ "IPT_INPUT_ACCESS", $ "ACCEPT, filter, INPUT, 1, FWKNOP_INPUT, 1", True);
    (1%nat, $ "IPT_OUTPUT_ACCESS", $ "ACCEPT, filter, OUTPUT, 1, FWKNOP_OUTPUT, 1", enabled cf ($ "ENABLE_IPT_OUTPUT"));
    (2%nat, $ "IPT_FORWARD_ACCESS", $ "ACCEPT, filter, FORWARD, 1, FWKNOP_FORWARD, 1", nat_on cf);
    (3%nat, $ "IPT_DNAT_ACCESS", $ "DNAT, nat, PREROUTING, 1, FWKNOP_PREROUTING, 1", nat_on cf);
    (4%nat, $ "IPT_SNAT_ACCESS", $ "SNAT, nat, POSTROUTING, 1, FWKNOP_POSTROUTING, 1", nat_on cf /\ enabled cf ($ "ENABLE_IPT_SNAT"));
    (5%nat, $ "IPT_MASQUERADE_ACCESS", $ "MASQUERADE, nat, POSTROUTING, 1, FWKNOP_MASQUERADE, 1", nat_on cf /\ enabled cf ($ "ENABLE_IPT_SNAT")) ].

(** ** What the build fixes *)
Definition build_ok (b : build) : Prop := b_run_dir b <> [] /\ b_firewall_exe b <> [] /\ b_config_file b <> [].

(** ** The files *)
(** The configuration file: that of the last -c, or that of the build *)
Definition config_name (b : build) (l : list opt) : bytes :=
  fold_left (fun d o => match o with Opt_c f => f | _ => d end) l (b_config_file b).
Definition opt_text (o : opt) : option bytes := match o with Opt_c f | Opt_O f | Opt_set _ f => Some f | Opt_bad => None end.
(** The files of the last -O *)
Definition overrides (l : list opt) : option bytes :=
  fold_left (fun d o => match o with Opt_O f => Some f | _ => d end) l None.
(** What the options say about entry [n]: the last of them counts. *)
Definition stored (l : list opt) (n : bytes) (old new : option bytes) : Prop :=
  (exists pre v post, l = pre ++ Opt_set n v :: post /\ new = Some v /\ forall w, ~ In (Opt_set n w) post) \/
  ((forall w, ~ In (Opt_set n w) l) /\ new = old).
(** A file whose lines are short, and taken as they stand *)
Definition plain_file (files : bytes -> option bytes) (name : bytes) (lines : list bytes) : Prop :=
  files name = Some (file lines) /\ Forall line_ok lines /\ Forall plain lines.
(** Text [o] names these files, with commas between the names. *)
Definition listed (o : bytes) (names : list bytes) : Prop :=
  o = join ($ ",") names /\ names <> [] /\ Forall (fun n => ~ In ","%byte n) names.

(** ** Settings that are in order *)
Definition config_ok (cf : config) (limits : list (bytes * Z * Z)) : Prop :=
  (forall i n d P v, In (i, n, d, P) (chain_table cf) -> says_or cf n d v ->
     zlen v <= 1023 /\ exists target table from jump to, chain_line v target table from jump to) /\
  (forall n lo hi, In (n, lo, hi) limits -> cf n = None \/ exists v y, cf n = Some v /\ integer_text v y /\ lo <= y <= hi) /\
  (enabled cf ($ "ENABLE_IPT_SNAT") -> forall ip, cf ($ "SNAT_TRANSLATE_IP") = Some ip -> address_text ip) /\
  cf ($ "FIREWALL_EXE") <> None /\ cf ($ "FWKNOP_RUN_DIR") <> Some [].

(** ** The defaults of the manual and of fwknopd.conf *)
Definition documented : list (bytes * bytes) :=
  [ ($ "PCAP_INTF", $ "eth0"); ($ "ENABLE_PCAP_PROMISC", $ "N"); ($ "PCAP_FILTER", $ "udp port 62201"); ($ "PCAP_DISPATCH_COUNT", $ "100");
    ($ "PCAP_LOOP_SLEEP", $ "100000"); ($ "EXIT_AT_INTF_DOWN", $ "Y"); ($ "MAX_SPA_PACKET_AGE", $ "120"); ($ "MAX_SNIFF_BYTES", $ "1500");
    ($ "ENABLE_DIGEST_PERSISTENCE", $ "Y"); ($ "RULES_CHECK_THRESHOLD", $ "20"); ($ "ENABLE_DESTINATION_RULE", $ "N"); ($ "ENABLE_RULE_PREPEND", $ "N");
    ($ "ENABLE_IPT_FORWARDING", $ "N"); ($ "ENABLE_IPT_LOCAL_NAT", $ "N"); ($ "ENABLE_IPT_SNAT", $ "N"); ($ "ENABLE_IPT_OUTPUT", $ "N");
    ($ "ENABLE_IPT_COMMENT_CHECK", $ "Y"); ($ "FLUSH_IPT_AT_INIT", $ "Y"); ($ "FLUSH_IPT_AT_EXIT", $ "Y"); ($ "ENABLE_NAT_DNS", $ "Y");
    ($ "ENABLE_X_FORWARDED_FOR", $ "N"); ($ "ENABLE_SPA_OVER_HTTP", $ "N"); ($ "ALLOW_ANY_USER_AGENT", $ "N"); ($ "GPG_HOME_DIR", $ "/root/.gnupg");
    ($ "ENABLE_TCP_SERVER", $ "N"); ($ "TCPSERV_PORT", $ "62201"); ($ "ENABLE_UDP_SERVER", $ "N"); ($ "UDPSERV_PORT", $ "62201");
    ($ "UDPSERV_SELECT_TIMEOUT", $ "500000"); ($ "SYSLOG_IDENTITY", $ "fwknopd"); ($ "SYSLOG_FACILITY", $ "LOG_DAEMON") ].
