(** Model of the reading of fwknopd.conf: parse_config_file in server/config_init.c and the
    library functions it uses.  Variables of the build with iptables and the digest file.
    Not modelled: log messages (except for the pointers they use), the command line, the
    defaults of validate_options. *)
From Verif Require Import Bytes M_base64 M_util M_message M_codec M_access M_replay.
From Coq Require Import Init.Byte List ZArith Bool.
Import ListNotations.
Open Scope Z_scope.

(** The longest beginning of [s] whose characters satisfy [p], and the rest *)
Fixpoint span (p : byte -> bool) (s : bytes) : bytes * bytes :=
  match s with
  | [] => ([], [])
  | c :: r => if p c then let '(a, b) := span p r in (c :: a, b) else ([], s)
  end.

(** sscanf(buf, "%s %[^;\n\r]", var, val), config_init.c:323, access.c:1541 and 2346; None: the
    result is not 2.  The arrays are as large as the line. *)
Definition value_char (c : byte) : bool := negb (beq c ";"%byte || beq c x0a || beq c x0d).
Definition scan_line (s : bytes) : option (bytes * bytes) :=
  let '(var, r) := span (fun c => negb (isspace c)) (skip_space s) in
  match var with
  | [] => None
  | _ => let '(val, _) := span value_char (skip_space r) in
         match val with [] => None | _ => Some (var, val) end
  end.

(** chop_whitespace, common/fko_util.c:567-581: the loop does not look at the first character,
    and changes nothing if all the others are spaces. *)
Definition rtrim (s : bytes) : bytes := rev (skip_space (rev s)).
Definition chop_whitespace (s : bytes) : bytes :=
  match s with
  | [] => []
  | c :: r => match rtrim r with [] => s | t => c :: t end
  end.

(** config_map, server/cmd_opts.h:39-149 *)
Definition config_map : list bytes :=
  [ $ "CONFIG_FILE"; $ "OVERRIDE_CONFIG"; $ "PCAP_INTF"; $ "PCAP_FILE"; $ "ENABLE_PCAP_PROMISC"; $ "PCAP_FILTER";
    $ "PCAP_DISPATCH_COUNT"; $ "PCAP_LOOP_SLEEP"; $ "ENABLE_PCAP_ANY_DIRECTION"; $ "EXIT_AT_INTF_DOWN";
    $ "MAX_SNIFF_BYTES"; $ "ENABLE_SPA_PACKET_AGING"; $ "MAX_SPA_PACKET_AGE"; $ "ENABLE_DIGEST_PERSISTENCE";
    $ "RULES_CHECK_THRESHOLD"; $ "CMD_EXEC_TIMEOUT"; $ "ENABLE_SPA_OVER_HTTP"; $ "ALLOW_ANY_USER_AGENT";
    $ "ENABLE_TCP_SERVER"; $ "TCPSERV_PORT"; $ "ENABLE_UDP_SERVER"; $ "UDPSERV_PORT"; $ "UDPSERV_SELECT_TIMEOUT";
    $ "LOCALE"; $ "SYSLOG_IDENTITY"; $ "SYSLOG_FACILITY"; $ "ENABLE_X_FORWARDED_FOR"; $ "ENABLE_DESTINATION_RULE";
    $ "ENABLE_RULE_PREPEND"; $ "ENABLE_NAT_DNS"; $ "ENABLE_IPT_FORWARDING"; $ "ENABLE_IPT_LOCAL_NAT";
    $ "ENABLE_IPT_SNAT"; $ "SNAT_TRANSLATE_IP"; $ "ENABLE_IPT_OUTPUT"; $ "FLUSH_IPT_AT_INIT"; $ "FLUSH_IPT_AT_EXIT";
    $ "IPT_INPUT_ACCESS"; $ "IPT_OUTPUT_ACCESS"; $ "IPT_FORWARD_ACCESS"; $ "IPT_DNAT_ACCESS"; $ "IPT_SNAT_ACCESS";
    $ "IPT_MASQUERADE_ACCESS"; $ "ENABLE_IPT_COMMENT_CHECK"; $ "FWKNOP_RUN_DIR"; $ "FWKNOP_CONF_DIR";
    $ "ACCESS_FILE"; $ "ACCESS_FOLDER"; $ "FWKNOP_PID_FILE"; $ "DIGEST_FILE"; $ "GPG_HOME_DIR"; $ "GPG_EXE";
    $ "SUDO_EXE"; $ "FIREWALL_EXE"; $ "VERBOSE"; $ "FAULT_INJECTION_TAG" ].
Definition known (n : bytes) : bool := existsb (bseq n) config_map.

(** opts->config, by the name of the entry; None is NULL.  set_config_entry, config_init.c:66-108 *)
Definition config : Type := bytes -> option bytes.
Definition set_entry (n v : bytes) (cf : config) : config := fun m => if bseq m n then Some v else cf m.

(** sscanf(s, "%[A-Z_]%s", tmp1, tmp2), config_init.c:351: the result (EOF is -1) and the
    arrays.  An array to which nothing is converted keeps its contents. *)
Definition name_char (c : byte) : bool := ((65 <=? bv c) && (bv c <=? 90)) || beq c "_"%byte.
Definition scan_variable (s tmp1 tmp2 : bytes) : Z * bytes * bytes :=
  match s with
  | [] => (-1, tmp1, tmp2)
  | _ => let '(n, r) := span name_char s in
         match n with
         | [] => (0, tmp1, tmp2)
         | _ => let '(w, _) := span (fun c => negb (isspace c)) (skip_space r) in
                match w with [] => (1, n, tmp2) | _ => (2, n, w) end
         end
  end.

(** The state of the loop: the entries, tmp1 and tmp2, and whether the text config_file points
    to has been freed. *)
Record cstate := mkCs { cs_config : config; cs_tmp1 : bytes; cs_tmp2 : bytes; cs_freed : bool }.

(** One round of the loop of parse_config_file, config_init.c:312-381, on the contents of
    conf_line_buf.  [own]: config_file is the entry CONFIG_FILE itself (line 1201), so that
    storing this entry frees it; the log messages use it. *)
Definition config_line (own : bool) (line : bytes) (st : cstate) : outcome cstate :=
  let s := cstr line in
  let message := if cs_freed st then Fault else Ok st in
  if is_empty_line (hd x00 s) then Ok st
  else match scan_line s with
  | None => message
  | Some (var, val) =>
      let val := chop_whitespace val in
      if known var then
        let store val st := mkCs (set_entry var val (cs_config st)) (cs_tmp1 st) (cs_tmp2 st)
                                 (cs_freed st || (own && bseq var ($ "CONFIG_FILE"))) in
        match val with
        | c :: t =>
            if beq c "$"%byte then
              let '(r, n, w) := scan_variable t (cs_tmp1 st) (cs_tmp2 st) in
              let st' := mkCs (cs_config st) n w (cs_freed st) in
              if r =? 0 then Ok (store val st')
              else match (if known n then cs_config st n else None) with
                   | Some v => let a := ztake (MAX_LINE_LEN - 1) v in
                               Ok (store (ztake (MAX_LINE_LEN - 1) (a ++ w)) st')
                   | None => if cs_freed st then Fault else Ok st'
                   end
            else Ok (store val st)
        | [] => Ok (store val st)
        end
      else message
  end.

(** The loop with fgets *)
Fixpoint config_lines (fuel : nat) (own : bool) (s : bytes) (st : cstate) : outcome cstate :=
  match fuel, s with
  | O, _ | _, [] => Ok st
  | S k, _ =>
      let '(line, t) := fgets (Z.to_nat (MAX_LINE_LEN - 1)) s in
      match config_line own line st with
      | Fault => Fault
      | Ok st' => config_lines k own t st'
      end
  end.
(** parse_config_file, config_init.c:280-385, for a file with contents [s] that can be opened
    and has the right owner and permissions *)
Definition parse_config_file (own : bool) (s : bytes) (cf : config) : outcome config :=
  match config_lines (List.length s) own s (mkCs cf [] [] false) with
  | Fault => Fault
  | Ok st => Ok (cs_config st)
  end.

(** range_check, config_init.c:47-61: None is the end of the daemon *)
Definition range_check (val : bytes) (low high : Z) : option Z :=
  match strtol_wrapper val low high with
  | (v, e) => if strtol_ok e then Some v else None
  end.
(** validate_int_var_ranges, config_init.c:138-213: the integer variables with their limits
    (RCHK_MAX_..., server/fwknopd_common.h:140-150) *)
Definition int_vars : list (bytes * Z * Z) :=
  [ ($ "PCAP_LOOP_SLEEP", 1, 8388608); ($ "PCAP_DISPATCH_COUNT", 1, 8388608); ($ "MAX_SPA_PACKET_AGE", 1, 100000);
    ($ "MAX_SNIFF_BYTES", 1, 32768); ($ "RULES_CHECK_THRESHOLD", 0, 131071); ($ "TCPSERV_PORT", 1, 131071);
    ($ "UDPSERV_PORT", 1, 131071); ($ "UDPSERV_SELECT_TIMEOUT", 1, 8388608) ].
(** The values stored in the options; None: the daemon ends.  validate_options has given every
    one of these entries a value before. *)
Fixpoint check_ranges (l : list (bytes * Z * Z)) (cf : config) : outcome (option (list (bytes * Z))) :=
  match l with
  | [] => Ok (Some [])
  | (n, low, high) :: r =>
      match cf n with
      | None => Fault
      | Some v =>
          match range_check v low high with
          | None => Ok None
          | Some x => match check_ranges r cf with
                      | Fault => Fault
                      | Ok None => Ok None
                      | Ok (Some t) => Ok (Some ((n, x) :: t))
                      end
          end
      end
  end.
Definition validate_int_var_ranges (cf : config) := check_ranges int_vars cf.
