(** Model of the firewalld back end, server/fw_util_firewalld.c.  Its commands are those of
    iptables, given to firewall-cmd behind the options --direct --passthrough ipv4; what
    differs from fw_util_iptables.c is how it finds out whether a rule or a chain exists, and
    whatever is built on that.  The rest of the code (running of commands, texts of the
    rules, choice of the addresses, removal of expired rules) is the same but for the names,
    and is that of M_fw: see the list at the end.
    Not modelled: log messages, fw_dump_rules, the NFQUEUE build, and firewall-cmd without the
    -C option (rule_exists_no_chk_support, jump_rule_exists_no_chk_support). *)
From Verif Require Import Bytes M_util M_message M_codec M_access M_cycle M_incoming M_packet M_fw M_fwinit.
From Coq Require Import Init.Byte List ZArith Bool.
Import ListNotations.
Open Scope Z_scope.

Definition FIREWD_CMD_FAIL_STR : bytes := $ "COMMAND_FAILED".               (* fw_util_firewalld.h:35 *)
Definition FIREWD_CMD_PREFIX : bytes := $ "--direct --passthrough ipv4".    (* fw_util_firewalld.h:36 *)

(** fw_config_init, fw_util_firewalld.c:1043-1047: fw_command from FIREWALL_EXE.  The settings
    are otherwise those of M_fw. *)
Definition through (cf : fwconf) : fwconf :=
  mkFw (snprintf 512 (f_cmd cf ++ $ " " ++ FIREWD_CMD_PREFIX ++ $ " "))
       (f_prepend cf) (f_use_dst cf) (f_snat cf) (f_snat_ip cf) (f_nat_dns cf).

(** strncmp(err_buf, "success", strlen("success")) == 0 *)
Definition says_success (s : bytes) : bool := is_prefix ($ "success") s.

Section Machine.
Variable W : Type.
Variable exec : W -> list bytes -> W * ended * bytes.
(** The exit status of a program that is run and exits *)
Variable status : W -> list bytes -> Z.
Variable cf : fwconf.   (* with the fw_command of [through] *)

(** rule_exists_chk_support, fw_util_firewalld.c:187-222 *)
Definition fd_rule_exists (chain rule : bytes) (w : W) : outcome (bool * W) :=
  get (_, err, w') <- run_extcmd W exec w (fmt (f_cmd cf ++ $ " -C " ++ chain ++ $ " " ++ rule)) CMD_BUFSIZE;
  Ok (says_success (chop_newline err), w').

(** chain_exists, fw_util_firewalld.c:436-469 *)
Definition fd_chain_exists (c : chain) (w : W) : outcome (bool * W) :=
  get (_, err, w') <- run_extcmd W exec w (fmt (f_cmd cf ++ $ " " ++ $ "-t " ++ c_table c ++ $ " -L " ++ c_to c ++ $ " -n")) CMD_BUFSIZE;
  Ok (match strstr (fun b => b) FIREWD_CMD_FAIL_STR (chop_newline err) with None => true | Some _ => false end, w').

(** jump_rule_exists_chk_support, fw_util_firewalld.c:471-491 *)
Definition fd_jump_rule_exists (c : chain) (w : W) : outcome (bool * W) :=
  fd_rule_exists (c_from c) (fmt ($ "-t " ++ c_table c ++ $ " -j " ++ c_to c)) w.

(** mk_chain, fw_util_firewalld.c:810-826: the number of errors *)
Definition fd_mk_chain (c : chain) (w : W) : outcome (Z * W) :=
  get (e1, w) <- (get (there, w) <- fd_chain_exists c w;
                  if there then Ok (0, w)
                  else get (ok, w) <- create_chain W exec cf c w; Ok (if ok then 0 else 1, w));
  get (e2, w) <- (get (there, w) <- fd_jump_rule_exists c w;
                  if there then Ok (0, w)
                  else get (ok, w) <- add_jump_rule W exec cf c w; Ok (if ok then 0 else 1, w));
  Ok (e1 + e2, w).

(** firewd_rule, fw_util_firewalld.c:1201-1263 *)
Definition firewd_rule (i : nat) (rule : bytes) (e now : Z) (s : state W) : outcome (state W) :=
  let '(cs, w) := s in
  let c := chain_at i cs in
  let rule := fmt rule in
  get (_, w) <- fd_mk_chain c w;
  get (there, w) <- fd_rule_exists (c_to c) rule w;
  if there then Ok (cs, w)
  else
    get (made, w) <- create_rule W exec cf (c_to c) rule w;
    if made then
      let next := if (c_next c <? now) || (e <? c_next c) then e else c_next c in
      Ok (set_chain i (mkChain (c_target c) (c_table c) (c_from c) (c_jump c) (c_to c) (c_active c + 1) next) cs, w)
    else Ok (cs, w).

(** forward_access_rule, fw_util_firewalld.c:1265-1316 *)
Definition fd_forward_access_rule (nc : nat_conf) (src : bytes) (proto nat_port e now : Z) (s : state W) : outcome (state W) :=
  let c := chain_at 2 (fst s) in
  firewd_rule 2 (fmt (if n_forward_all nc then FWD_ALL_RULE_ARGS (c_table c) src e (c_target c)
                      else FWD_RULE_ARGS (c_table c) proto src nat_port e (c_target c))) e now s.

(** dnat_rule, fw_util_firewalld.c:1318-1375 *)
Definition fd_dnat_rule (nc : nat_conf) (src dst nat_ip : bytes) (nat_port proto port e now : Z) (s : state W) : outcome (state W) :=
  let c := chain_at 3 (fst s) in
  firewd_rule 3 (fmt (if n_forward_all nc then DNAT_ALL_RULE_ARGS (c_table c) src dst e (c_target c) nat_ip
                      else DNAT_RULE_ARGS (c_table c) proto src dst port e (c_target c) nat_ip nat_port)) e now s.

(** snat_rule, fw_util_firewalld.c:1377-1487 *)
Definition fd_snat_rule (nc : nat_conf) (src nat_ip : bytes) (nat_port proto port e now : Z) (s : state W) : outcome (state W) :=
  let '(i, how) := snat_target cf nc port in
  let c := chain_at i (fst s) in
  firewd_rule i (fmt (if n_forward_all nc then SNAT_ALL_RULE_ARGS (c_table c) src e (c_target c) how
                      else SNAT_RULE_ARGS (c_table c) proto nat_ip nat_port e (c_target c) how)) e now s.

Variable resolve : bytes -> option bytes.

(** The while loop over the port list, fw_util_firewalld.c:1638-1665 *)
Fixpoint fd_open_ports (src dst : bytes) (pl : list (Z * Z)) (e now : Z) (s : state W) : outcome (state W) :=
  match pl with
  | [] => Ok s
  | (proto, port) :: r =>
      let c := chain_at 0 (fst s) in
      get s <- firewd_rule 0 (RULE_ARGS (c_table c) proto src dst port e (c_target c)) e now s;
      let o := chain_at 1 (fst s) in
      get s <- (if negb (zlen (c_to o) =? 0)
                then firewd_rule 1 (OUT_RULE_ARGS (c_table o) proto src dst port e (c_target o)) e now s
                else Ok s);
      fd_open_ports src dst r e now s
  end.

(** process_spa_request, fw_util_firewalld.c:1493-1674; as in M_fw *)
Definition fd_process_spa_request (nc : nat_conf) (d : spa_data) (now : Z) (s : state W) : outcome (state W) :=
  match expand_acc_port_list (d_remain d) with
  | None | Some [] => Ok s
  | Some (((proto, port) :: _) as pl) =>
      let e := u32 (now + d_timeout d) in
      let src := d_use d in
      let dst := if f_use_dst cf then d_pkt_dst d else IPT_ANY_IP in
      let local := (d_type d =? FKO_LOCAL_NAT_ACCESS_MSG) || (d_type d =? FKO_CLIENT_TIMEOUT_LOCAL_NAT_ACCESS_MSG) in
      if local || (d_type d =? FKO_NAT_ACCESS_MSG) || (d_type d =? FKO_CLIENT_TIMEOUT_NAT_ACCESS_MSG) || n_force nc
      then
        get a <- nat_address cf resolve nc (match d_nat d with Some n => n | None => [] end);
        match a with
        | None => Ok s
        | Some (nat_ip, nat_port) =>
            get s <- (if local then
                        let c := chain_at 0 (fst s) in
                        firewd_rule 0 (RULE_ARGS (c_table c) proto src dst nat_port e (c_target c)) e now s
                      else if negb (zlen (c_to (chain_at 2 (fst s))) =? 0)
                      then fd_forward_access_rule nc src proto nat_port e now s
                      else Ok s);
            get s <- (if negb (zlen (c_to (chain_at 3 (fst s))) =? 0) && negb (n_no_dnat nc)
                      then fd_dnat_rule nc src dst nat_ip nat_port proto port e now s
                      else Ok s);
            if n_snat nc || f_snat cf then fd_snat_rule nc src nat_ip nat_port proto port e now s else Ok s
        end
      else fd_open_ports src dst pl e now s
  end.

(** delete_all_chains, fw_util_firewalld.c:627-702 *)
Fixpoint fd_delete_jumps (tries : nat) (c : chain) (w : W) : outcome W :=
  match tries with
  | O => Ok w
  | S n =>
      get (there, w) <- fd_jump_rule_exists c w;
      if there then
        get (_, w) <- command W exec cf ($ "-t " ++ c_table c ++ $ " -D " ++ c_from c ++ $ " -j " ++ c_to c) w;
        fd_delete_jumps n c w
      else Ok w
  end.
Definition fd_delete_chain (c : chain) (w : W) : outcome W :=
  if zlen (c_target c) =? 0 then Ok w
  else
    get w <- fd_delete_jumps 10 c w;
    get (_, w) <- command W exec cf ($ "-t " ++ c_table c ++ $ " -F " ++ c_to c) w;
    get (_, w) <- command W exec cf ($ "-t " ++ c_table c ++ $ " -X " ++ c_to c) w;
    Ok w.
Fixpoint fd_delete_all_chains (cs : list chain) (w : W) : outcome W :=
  match cs with
  | [] => Ok w
  | c :: r => get w <- fd_delete_chain c w; fd_delete_all_chains r w
  end.
(** create_fw_chains, fw_util_firewalld.c:830-844: the number of errors *)
Fixpoint fd_create_fw_chains (cs : list chain) (w : W) : outcome (Z * W) :=
  match cs with
  | [] => Ok (0, w)
  | c :: r =>
      get (e, w) <- (if zlen (c_target c) =? 0 then Ok (0, w) else fd_mk_chain c w);
      get (e', w) <- fd_create_fw_chains r w;
      Ok (e + e', w)
  end.

(** firewd_chk_support, fw_util_firewalld.c:255-325: whether -C is supported *)
Definition firewd_chk_support (c : chain) (w : W) : outcome (bool * W) :=
  get (_, w) <- command W exec cf ($ "-t " ++ c_table c ++ $ " -I " ++ c_from c ++ $ " 1 -s " ++ DUMMY_IP ++ $ " -p udp -j " ++ c_target c) w;
  get (_, err, w) <- run_extcmd W exec w (fmt (f_cmd cf ++ $ " " ++ $ "-t " ++ c_table c ++ $ " -C " ++ c_from c ++ $ " -s " ++ DUMMY_IP ++ $ " -p udp -j " ++ c_target c)) CMD_BUFSIZE;
  get w <- delete_first W exec cf c w;
  Ok (says_success (chop_newline err), w).

(** pid_status after run_extcmd, server/extcmd.c:144, 263, as far as it is looked at: whether it
    is 0 *)
Definition status_zero (w : W) (cmd : bytes) : bool :=
  match strtoargv cmd with
  | Ok (Some argv) => match exec w argv with (_, Exited, _) => status w argv =? 0 | _ => false end
  | _ => false
  end.

(** comment_match_exists, fw_util_firewalld.c:327-399 *)
Definition fd_comment_match_exists (c : chain) (w : W) : outcome (bool * W) :=
  let insert := $ "-t " ++ c_table c ++ $ " -I " ++ c_from c ++ $ " 1 -s " ++ DUMMY_IP ++ $ " -m comment --comment " ++ TMP_COMMENT ++ $ " -j " ++ c_target c in
  let zero := status_zero w (fmt (f_cmd cf ++ $ " " ++ insert)) in
  get (ok, w) <- command W exec cf insert w;
  if negb ok || negb zero then Ok (false, w)
  else
    get (_, out, w) <- run_extcmd W exec w (fmt (f_cmd cf ++ $ " " ++ $ "-t " ++ c_table c ++ $ " -L " ++ c_from c ++ $ " --line-numbers -n")) STANDARD_CMD_OUT_BUFSIZE;
    match strstr (fun b => b) TMP_COMMENT (chop_newline out) with
    | None => Ok (false, w)
    | Some _ => get w <- delete_first W exec cf c w; Ok (true, w)
    end.

(** fw_initialize, fw_util_firewalld.c:1110-1153; arguments and result as in M_fwinit *)
Definition fd_fw_initialize (flush check : bool) (cs : list chain) (w : W) : outcome (option bool * W) :=
  get (sup, w) <- firewd_chk_support (chain_at 0 cs) w;
  if negb sup then Ok (None, w)
  else
    get w <- (if flush then fd_delete_all_chains cs w else Ok w);
    get (e, w) <- fd_create_fw_chains cs w;
    get (found, w) <- (if check then fd_comment_match_exists (chain_at 0 cs) w else Ok (true, w));
    Ok (Some ((e =? 0) && found), w).

(** fw_cleanup, fw_util_firewalld.c:1155-1164 *)
Definition fd_fw_cleanup (keep fw_flush : bool) (cs : list chain) (w : W) : outcome W :=
  if keep && negb fw_flush then Ok w else fd_delete_all_chains cs w.

(** Code that is the same in both files, but for the names:
    add_jump_rule 401-434, create_chain 778-808, set_fw_chain_conf 941-1034, create_rule
    1166-1199, the choice of the internal address in process_spa_request 1526-1586, the choice
    of the source address in snat_rule 1377-1487, rm_expired_rules 1676-1829,
    check_firewall_rules 1834-1913, validate_firewd_chain_conf 1915-1946. *)
Definition fd_check_firewall_rules (all : bool) (now : Z) (s : state W) : outcome (state W) :=
  check_firewall_rules W exec cf all now s.
End Machine.
