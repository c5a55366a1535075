(** Model of the start of the daemon: config_init and validate_options in server/config_init.c,
    fw_config_init in server/fw_util_iptables.c and main in server/fwknopd.c up to the first
    packet.  Build with iptables, libpcap and the digest file.
    Not modelled: log messages, the PID file, and the command line options that do something else
    than starting the daemon.  Options that set flags are parameters where they are used. *)
From Verif Require Import Bytes M_base64 M_util M_message M_codec M_access M_replay M_cycle M_incoming M_packet M_conf M_fw M_accfile.
From Coq Require Import Init.Byte List ZArith Bool.
Import ListNotations.
Open Scope Z_scope.

(** The paths the build fixes: DEF_CONFIG_FILE, DEF_CONF_DIR, DEF_ACCESS_FILE, DEF_RUN_DIR,
    FIREWALL_EXE, DEF_GPG_EXE and DEF_SUDO_EXE, fwknopd_common.h:55-110 *)
Record build := mkBuild {
  b_config_file : bytes; b_conf_dir : bytes; b_access_file : bytes; b_run_dir : bytes;
  b_firewall_exe : bytes; b_gpg_exe : bytes; b_sudo_exe : bytes }.

(** ** The configuration files *)
(** The options in the order they are given: -c FILE, -O FILES, those that store their argument
    in the entry [n], and those that are refused.  -a, --access-folder, --gpg-exe, --gpg-home-dir,
    --pcap-file and --sudo-exe are refused if the path given is not there. *)
Inductive opt := Opt_c (f : bytes) | Opt_O (f : bytes) | Opt_set (n v : bytes) | Opt_bad.
(** The entries that options store, config_init.c:1280-1430 *)
Definition option_entries : list bytes :=
  [ $ "ACCESS_FILE"; $ "ACCESS_FOLDER"; $ "DIGEST_FILE"; $ "GPG_EXE"; $ "GPG_HOME_DIR"; $ "PCAP_INTF"; $ "LOCALE";
    $ "FWKNOP_PID_FILE"; $ "PCAP_FILTER"; $ "PCAP_FILE"; $ "FWKNOP_RUN_DIR"; $ "SUDO_EXE" ].
(** The scan of config_init, config_init.c:1158-1191.  After -c there is no break if no -O has
    been seen: the file is stored as OVERRIDE_CONFIG too.  [o]: got_override_config > 0 *)
Fixpoint scan_opts (l : list opt) (o : bool) (cf : config) : config :=
  match l with
  | [] => cf
  | Opt_c f :: r =>
      let cf := set_entry ($ "CONFIG_FILE") f cf in
      if o then scan_opts r o cf else scan_opts r true (set_entry ($ "OVERRIDE_CONFIG") f cf)
  | Opt_O f :: r => scan_opts r true (set_entry ($ "OVERRIDE_CONFIG") f cf)
  | Opt_set _ _ :: r | Opt_bad :: r => scan_opts r o cf
  end.
(** What becomes of the start: the daemon goes on, it ends (clean_exit), or undefined behaviour *)
Inductive progress (A : Type) := Goes (a : A) | Ends | Wrong.
Arguments Goes {A}. Arguments Ends {A}. Arguments Wrong {A}.
Definition rrun {A B} (x : progress A) (f : A -> progress B) : progress B :=
  match x with Goes a => f a | Ends => Ends | Wrong => Wrong end.
Notation "'go' x <- a ; b" := (rrun a (fun x => b)) (at level 200, x pattern, a at level 100, b at level 200).
Definition of_outcome {A} (x : outcome A) : progress A := match x with Ok a => Goes a | Fault => Wrong end.

(** parse_config_file, config_init.c:280-385, with the file as the system has it *)
Definition read_config (files : bytes -> option bytes) (own : bool) (name : bytes) (cf : config) : progress config :=
  match files name with None => Ends | Some s => of_outcome (parse_config_file own s cf) end.
(** The files named in OVERRIDE_CONFIG, config_init.c:1206-1240 *)
Fixpoint cut_at (c : byte) (s cur : bytes) : list bytes :=
  match s with
  | [] => [cur]
  | d :: r => if beq d c then cur :: cut_at c r [] else cut_at c r (cur ++ [d])
  end.
Fixpoint read_configs (files : bytes -> option bytes) (names : list bytes) (cf : config) : progress config :=
  match names with
  | [] => Goes cf
  | n :: r => go cf <- read_config files false n cf; read_configs files r cf
  end.
(** VERBOSE, config_init.c:1244-1255 *)
Definition verbose_ok (cf : config) : bool :=
  match cf ($ "VERBOSE") with
  | None => true
  | Some v => strtol_ok (snd (strtol_wrapper v 0 (-1)))
  end.
(** The last scan, config_init.c:1257-1461 *)
Fixpoint last_opts (l : list opt) (cf : config) : progress config :=
  match l with
  | [] => Goes cf
  | Opt_c _ :: r | Opt_O _ :: r => last_opts r cf
  | Opt_set n v :: r => last_opts r (if existsb (bseq n) option_entries then set_entry n v cf else cf)
  | Opt_bad :: _ => Ends
  end.
(** config_init, config_init.c:1069-1461 *)
Definition config_init (b : build) (files : bytes -> option bytes) (l : list opt) : progress config :=
  let cf := set_entry ($ "FIREWALL_EXE") (b_firewall_exe b) (fun _ => None) in
  let cf := scan_opts l false cf in
  let cf := match cf ($ "CONFIG_FILE") with None => set_entry ($ "CONFIG_FILE") (b_config_file b) cf | Some _ => cf end in
  match cf ($ "CONFIG_FILE") with
  | None => Wrong
  | Some name =>
      go cf <- read_config files true name cf;
      go cf <- match cf ($ "OVERRIDE_CONFIG") with
               | None => Goes cf
               | Some o => read_configs files (cut_at ","%byte (ztake (MAX_LINE_LEN - 1) o) []) cf
               end;
      if verbose_ok cf then last_opts l cf else Ends
  end.

(** ** validate_options, config_init.c:389-1042 *)
Definition set_default (n v : bytes) (cf : config) : config :=
  match cf n with None => set_entry n v cf | Some _ => cf end.
(** The entries with fixed defaults, fwknopd_common.h:84-188.  They are set one after another,
    with the checks between them; no check looks at what is set after it. *)
Definition defaults (b : build) : list (bytes * bytes) :=
  [ ($ "FWKNOP_CONF_DIR", b_conf_dir b); ($ "ACCESS_FILE", b_access_file b); ($ "FWKNOP_RUN_DIR", b_run_dir b);
    ($ "PCAP_INTF", $ "eth0"); ($ "ENABLE_PCAP_PROMISC", $ "N"); ($ "PCAP_DISPATCH_COUNT", $ "100");
    ($ "PCAP_LOOP_SLEEP", $ "100000"); ($ "EXIT_AT_INTF_DOWN", $ "Y"); ($ "PCAP_FILTER", $ "udp port 62201");
    ($ "MAX_SPA_PACKET_AGE", $ "120"); ($ "ENABLE_DIGEST_PERSISTENCE", $ "Y"); ($ "RULES_CHECK_THRESHOLD", $ "20");
    ($ "ENABLE_DESTINATION_RULE", $ "N"); ($ "MAX_SNIFF_BYTES", $ "1500");
    ($ "ENABLE_IPT_FORWARDING", $ "N"); ($ "ENABLE_IPT_LOCAL_NAT", $ "N"); ($ "ENABLE_IPT_SNAT", $ "N");
    ($ "ENABLE_IPT_OUTPUT", $ "N"); ($ "FLUSH_IPT_AT_INIT", $ "Y"); ($ "FLUSH_IPT_AT_EXIT", $ "Y");
    ($ "IPT_INPUT_ACCESS", $ "ACCEPT, filter, INPUT, 1, FWKNOP_INPUT, 1");
    ($ "IPT_OUTPUT_ACCESS", $ "ACCEPT, filter, OUTPUT, 1, FWKNOP_OUTPUT, 1");
    ($ "IPT_FORWARD_ACCESS", $ "ACCEPT, filter, FORWARD, 1, FWKNOP_FORWARD, 1");
    ($ "IPT_DNAT_ACCESS", $ "DNAT, nat, PREROUTING, 1, FWKNOP_PREROUTING, 1");
    ($ "IPT_SNAT_ACCESS", $ "SNAT, nat, POSTROUTING, 1, FWKNOP_POSTROUTING, 1");
    ($ "IPT_MASQUERADE_ACCESS", $ "MASQUERADE, nat, POSTROUTING, 1, FWKNOP_MASQUERADE, 1");
    ($ "ENABLE_IPT_COMMENT_CHECK", $ "Y"); ($ "ENABLE_X_FORWARDED_FOR", $ "N"); ($ "ENABLE_RULE_PREPEND", $ "N");
    ($ "ENABLE_NAT_DNS", $ "Y"); ($ "GPG_HOME_DIR", $ "/root/.gnupg"); ($ "GPG_EXE", b_gpg_exe b);
    ($ "SUDO_EXE", b_sudo_exe b); ($ "ENABLE_SPA_OVER_HTTP", $ "N"); ($ "ALLOW_ANY_USER_AGENT", $ "N");
    ($ "ENABLE_TCP_SERVER", $ "N"); ($ "TCPSERV_PORT", $ "62201"); ($ "ENABLE_UDP_SERVER", $ "N");
    ($ "UDPSERV_PORT", $ "62201"); ($ "UDPSERV_SELECT_TIMEOUT", $ "500000"); ($ "SYSLOG_IDENTITY", $ "fwknopd");
    ($ "SYSLOG_FACILITY", $ "LOG_DAEMON") ].
Definition set_defaults (l : list (bytes * bytes)) (cf : config) : config :=
  fold_left (fun cf e => set_default (fst e) (snd e) cf) l cf.
(** The path of a file in FWKNOP_RUN_DIR, config_init.c:412-442: the last character of an empty
    string is looked at before its beginning *)
Definition run_path (name dir : bytes) : outcome bytes :=
  let d := ztake (MAX_PATH_LEN - 1) dir in
  match d with
  | [] => Fault
  | _ => let d := if beq (last d x00) "/"%byte then d else ztake (MAX_PATH_LEN - 1) (d ++ $ "/") in
         Ok (ztake (MAX_PATH_LEN - 1) (d ++ name))
  end.
Definition set_path (n name : bytes) (cf : config) : progress config :=
  match cf n, cf ($ "FWKNOP_RUN_DIR") with
  | Some _, _ => Goes cf
  | None, Some d => go p <- of_outcome (run_path name d); Goes (set_entry n p cf)
  | None, None => Wrong
  end.
(** opts->config[...] where NULL is undefined *)
Definition entry (cf : config) (n : bytes) : progress bytes := match cf n with Some v => Goes v | None => Wrong end.
Definition chain_settings : list bytes :=
  [ $ "IPT_INPUT_ACCESS"; $ "IPT_OUTPUT_ACCESS"; $ "IPT_FORWARD_ACCESS"; $ "IPT_DNAT_ACCESS"; $ "IPT_SNAT_ACCESS"; $ "IPT_MASQUERADE_ACCESS" ].
Fixpoint check_chain_settings (l : list bytes) (cf : config) : progress unit :=
  match l with
  | [] => Goes tt
  | n :: r => go v <- entry cf n; if validate_ipt_chain_conf v then check_chain_settings r cf else Ends
  end.
(** The integer variables *)
Definition numbers : Type := list (bytes * Z).
Definition validate_options (b : build) (cf : config) : progress (config * numbers) :=
  let cf := set_defaults (defaults b) cf in
  go cf <- set_path ($ "FWKNOP_PID_FILE") ($ "fwknopd.pid") cf;
  go cf <- set_path ($ "DIGEST_FILE") ($ "digest.cache") cf;
  let cf := set_default ($ "ENABLE_SPA_PACKET_AGING") (match cf ($ "PCAP_FILE") with None => $ "Y" | Some _ => $ "N" end) cf in
  go sn <- entry cf ($ "ENABLE_IPT_SNAT");
  if yes sn && (match cf ($ "SNAT_TRANSLATE_IP") with Some ip => negb (is_valid_ipv4_addr ip (zlen ip)) | None => false end) then Ends
  else
    go _ <- check_chain_settings chain_settings cf;
    go ns <- of_outcome (validate_int_var_ranges cf);
    match ns, cf ($ "FIREWALL_EXE") with
    | Some ns, Some _ => Goes (cf, ns)
    | _, _ => Ends
    end.

(** ** fw_config_init, fw_util_iptables.c:1026-1091 *)
Definition one_chain (cf : config) (n : bytes) : progress chain :=
  go v <- entry cf n;
  go c <- of_outcome (set_fw_chain_conf v);
  match c with Some c => Goes c | None => Ends end.
Definition some_chain (b : bool) (cf : config) (n : bytes) : progress chain := if b then one_chain cf n else Goes no_chain.
Definition text (o : option bytes) : bytes := match o with Some v => v | None => [] end.
Definition fw_config_init (cf : config) : progress (fwconf * list chain) :=
  go exe <- entry cf ($ "FIREWALL_EXE");
  go c0 <- one_chain cf ($ "IPT_INPUT_ACCESS");
  go o <- entry cf ($ "ENABLE_IPT_OUTPUT");
  go c1 <- some_chain (yes o) cf ($ "IPT_OUTPUT_ACCESS");
  go f <- entry cf ($ "ENABLE_IPT_FORWARDING");
  go l <- entry cf ($ "ENABLE_IPT_LOCAL_NAT");
  let nat := yes f || yes l in
  go c2 <- some_chain nat cf ($ "IPT_FORWARD_ACCESS");
  go c3 <- some_chain nat cf ($ "IPT_DNAT_ACCESS");
  go sn <- entry cf ($ "ENABLE_IPT_SNAT");
  go c5 <- some_chain (nat && yes sn) cf ($ "IPT_MASQUERADE_ACCESS");
  go c4 <- some_chain (nat && yes sn) cf ($ "IPT_SNAT_ACCESS");
  go d <- entry cf ($ "ENABLE_DESTINATION_RULE");
  go pre <- entry cf ($ "ENABLE_RULE_PREPEND");
  go dns <- entry cf ($ "ENABLE_NAT_DNS");
  Goes (mkFw (ztake (MAX_PATH_LEN - 1) exe) (yes pre) (yes d) (yes sn) (text (cf ($ "SNAT_TRANSLATE_IP"))) (yes dns),
        [c0; c1; c2; c3; c4; c5]).

(** ** The start, main in fwknopd.c:80-250 *)
(** The configuration of incoming_spa.c; [test]: the option --test *)
Definition number_of (n : bytes) (l : numbers) : Z :=
  match find (fun e => bseq (fst e) n) l with Some e => snd e | None => 0 end.
Definition spa_conf (test : bool) (cf : config) (ns : numbers) : conf :=
  let val n := text (cf n) in
  mkConf (val ($ "ENABLE_DIGEST_PERSISTENCE")) (val ($ "ENABLE_SPA_OVER_HTTP")) (val ($ "ALLOW_ANY_USER_AGENT"))
    (val ($ "ENABLE_X_FORWARDED_FOR")) (val ($ "ENABLE_SPA_PACKET_AGING")) (number_of ($ "MAX_SPA_PACKET_AGE") ns)
    (val ($ "ENABLE_IPT_FORWARDING")) (val ($ "ENABLE_IPT_LOCAL_NAT")) (val ($ "SUDO_EXE")) test.
(** The rest of the system as access.c sees it *)
Definition access_system (y : system) (cf : config) : system :=
  mkSys (y_file y) (y_dir y) (y_pw y) (y_is_dir y) (y_mktime y)
    (text (cf ($ "ENABLE_IPT_FORWARDING"))) (text (cf ($ "ENABLE_IPT_LOCAL_NAT"))) (text (cf ($ "GPG_HOME_DIR"))).
(** What the daemon starts with: the settings of the firewall and its chains, those of
    incoming_spa.c, the stanzas, and enable_fw.  [fuel]: as in parse_access_file; None: the
    reading of the access files does not end. *)
Record started := mkStarted { sd_fw : fwconf; sd_chains : list chain; sd_conf : conf; sd_accs : list acc; sd_enable : bool; sd_config : config }.
Definition daemon_start (b : build) (fuel : nat) (test : bool) (y : system) (l : list opt) : progress (option started) :=
  go cf <- config_init b (y_file y) l;
  go (cf, ns) <- validate_options b cf;
  go (fc, cs) <- fw_config_init cf;
  match load_access fuel (access_system y cf) (text (cf ($ "ACCESS_FILE"))) (cf ($ "ACCESS_FOLDER")) with
  | Done (accs, fw) => Goes (Some (mkStarted fc cs (spa_conf test cf ns) accs fw cf))
  | Failed | M_accfile.Exited => Ends
  | Crashed => Wrong
  | Endless => Goes None
  end.
