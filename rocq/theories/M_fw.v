(** Model of server/fw_util_iptables.c and of the running of external commands in
    server/extcmd.c (built with execvp).
    The programs that are run are a parameter [exec] on some state [W] of the machine.
    Not modelled: log messages, fw_dump_rules, the NFQUEUE build, iptables versions without
    the -C option (rule_exists_no_chk_support, jump_rule_exists_no_chk_support) and the probing
    of that option and of the comment match when the daemon starts. *)
From Verif Require Import Bytes M_util M_message M_codec M_access M_cycle M_incoming M_packet.
From Coq Require Import Init.Byte List ZArith Bool.
Import ListNotations.
Open Scope Z_scope.

Definition CMD_BUFSIZE : Z := 256.                    (* server/fw_util.h:33 *)
Definition STANDARD_CMD_OUT_BUFSIZE : Z := 4096.      (* server/fw_util.h:37 *)
Definition IO_READ_BUF_LEN : Z := 256.                (* server/extcmd.h:33 *)
Definition EXPIRE_COMMENT_PREFIX : bytes := $ "_exp_". (* server/fw_util.h:39 *)
Definition RCHK_MAX_IPT_RULE_NUM : Z := 65536.        (* server/fwknopd_common.h:190 *)
Definition SNAT_TARGET_BUFSIZE : Z := 64.             (* server/fw_util_iptables.h:33 *)
Definition MAX_NAME_LEN : Z := 64.                    (* server/fwknopd_common.h:473-475 *)
Definition FW_NUM_CHAIN_FIELDS : Z := 6.              (* server/fwknopd_common.h:506 *)
Definition IPT_ANY_IP : bytes := $ "0.0.0.0/0".       (* server/fw_util_iptables.h:65 *)

(** snprintf(buf, CMD_BUFSIZE-1, ...) *)
Definition fmt (s : bytes) : bytes := snprintf (CMD_BUFSIZE - 1) s.

(** chop_char and chop_newline, common/fko_util.c:730-746 *)
Definition chop_newline (s : bytes) : bytes :=
  if (zlen s >? 1) && beq (last s x00) x0a then removelast s else s.

(** The loop of chop_spaces, common/fko_util.c:748-761, on the reversed string *)
Fixpoint chop_spaces_rev (r : bytes) : bytes :=
  match r with
  | c :: ((_ :: _) as t) => if beq c " "%byte then chop_spaces_rev t else r
  | _ => r
  end.
Definition chop_spaces (s : bytes) : bytes := rev (chop_spaces_rev (rev s)).

(** is_digits, server/utils.c:207-220 *)
Definition is_digits (s : bytes) : bool := forallb isdigit s.

(** The inner loop of truncate_partial_line, server/utils.c:192-198, on the reversed string *)
Fixpoint cut_rev (r : bytes) : bytes :=
  match r with
  | c :: ((_ :: _) as t) => if beq c x0a then r else cut_rev t
  | _ => r
  end.
(** truncate_partial_line, server/utils.c:172-203 *)
Definition truncate_partial_line (s : bytes) : bytes :=
  if memb x0a s then rev (cut_rev (rev s)) else s.

(** The while loop with fgets in _run_extcmd, server/extcmd.c:229-238, and copy_or_search,
    extcmd.c:74-109: [s] is what the program still has to write, [cur] the part of the current
    line read so far, [buf] the contents of so_buf. *)
Fixpoint read_output (size : Z) (s cur buf : bytes) : bytes :=
  let add := buf ++ ztake (size - 1 - zlen buf) (cstr cur) in
  match s with
  | [] => match cur with [] => buf | _ => add end
  | c :: r =>
      let cur := cur ++ [c] in
      if beq c x0a || (zlen cur =? IO_READ_BUF_LEN - 1) then
        let buf := buf ++ ztake (size - 1 - zlen buf) (cstr cur) in
        if zlen buf >=? size - 1 then buf else read_output size r [] buf
      else read_output size r cur buf
  end.

(** What becomes of a child process: it cannot be started, it is killed by a signal, or it
    exits (with whatever status). *)
Inductive ended := NotStarted | Killed | Exited.

(** struct fw_chain, server/fwknopd_common.h:521-533 (type and rule_pos are not used) *)
Record chain := mkChain {
  c_target : bytes; c_table : bytes; c_from : bytes; c_jump : Z; c_to : bytes;
  c_active : Z; c_next : Z }.
Definition no_chain : chain := mkChain [] [] [] 0 [] 0 0.

(** The chains of struct fw_config by type: input 0, output 1, forward 2, DNAT 3, SNAT 4,
    masquerade 5; server/fwknopd_common.h:509-519. *)
Definition chain_at (i : nat) (cs : list chain) : chain := nth i cs no_chain.
Fixpoint set_chain (i : nat) (c : chain) (cs : list chain) : list chain :=
  match cs, i with
  | [], _ => []
  | _ :: r, O => c :: r
  | x :: r, S j => x :: set_chain j c r
  end.

(** The settings used: FIREWALL_EXE, ENABLE_RULE_PREPEND, ENABLE_DESTINATION_RULE,
    ENABLE_IPT_SNAT, SNAT_TRANSLATE_IP, ENABLE_NAT_DNS *)
Record fwconf := mkFw {
  f_cmd : bytes; f_prepend : bool; f_use_dst : bool; f_snat : bool; f_snat_ip : bytes; f_nat_dns : bool }.

(** The argument formats of server/fw_util_iptables.h:43-64 *)
Definition expire_args (e : Z) (target : bytes) : bytes :=
  $ " -m comment --comment " ++ EXPIRE_COMMENT_PREFIX ++ dec e ++ $ " -j " ++ target.
Definition RULE_ARGS (table : bytes) (proto : Z) (src dst : bytes) (port e : Z) (target : bytes) : bytes :=
  $ "-t " ++ table ++ $ " -p " ++ dec_i proto ++ $ " -s " ++ src ++ $ " -d " ++ dst ++
  $ " --dport " ++ dec_i port ++ expire_args e target.
Definition OUT_RULE_ARGS (table : bytes) (proto : Z) (src dst : bytes) (port e : Z) (target : bytes) : bytes :=
  $ "-t " ++ table ++ $ " -p " ++ dec_i proto ++ $ " -d " ++ src ++ $ " -s " ++ dst ++
  $ " --sport " ++ dec_i port ++ expire_args e target.
Definition FWD_RULE_ARGS (table : bytes) (proto : Z) (src : bytes) (port e : Z) (target : bytes) : bytes :=
  $ "-t " ++ table ++ $ " -p " ++ dec_i proto ++ $ " -s " ++ src ++
  $ " --dport " ++ dec_i port ++ expire_args e target.
Definition FWD_ALL_RULE_ARGS (table src : bytes) (e : Z) (target : bytes) : bytes :=
  $ "-t " ++ table ++ $ " -s " ++ src ++ expire_args e target.
Definition DNAT_RULE_ARGS (table : bytes) (proto : Z) (src dst : bytes) (port e : Z) (target to : bytes) (to_port : Z) : bytes :=
  $ "-t " ++ table ++ $ " -p " ++ dec_i proto ++ $ " -s " ++ src ++ $ " -d " ++ dst ++
  $ " --dport " ++ dec_i port ++ expire_args e target ++
  $ " --to-destination " ++ to ++ $ ":" ++ dec_i to_port.
Definition DNAT_ALL_RULE_ARGS (table src dst : bytes) (e : Z) (target to : bytes) : bytes :=
  $ "-t " ++ table ++ $ " -s " ++ src ++ $ " -d " ++ dst ++ expire_args e target ++ $ " --to-destination " ++ to.
Definition SNAT_RULE_ARGS (table : bytes) (proto : Z) (dst : bytes) (port e : Z) (target how : bytes) : bytes :=
  $ "-t " ++ table ++ $ " -p " ++ dec_i proto ++ $ " -d " ++ dst ++
  $ " --dport " ++ dec_i port ++ expire_args e target ++ $ " " ++ how.
Definition SNAT_ALL_RULE_ARGS (table src : bytes) (e : Z) (target how : bytes) : bytes :=
  $ "-t " ++ table ++ $ " -s " ++ src ++ expire_args e target ++ $ " " ++ how.

Section Machine.
Variable W : Type.
Variable exec : W -> list bytes -> W * ended * bytes.

(** run_extcmd with WANT_STDERR: _run_extcmd, server/extcmd.c:118-340.  The result is whether
    EXTCMD_IS_SUCCESS holds of the return value, what is in so_buf, and the state. *)
Definition run_extcmd (w : W) (cmd : bytes) (size : Z) : outcome (bool * bytes * W) :=
  get args <- strtoargv cmd;
  match args with
  | None => Ok (false, [], w)
  | Some argv =>
      match exec w argv with
      | (w', NotStarted, _) => Ok (false, [], w')
      | (w', Killed, out) => Ok (false, truncate_partial_line (read_output size out [] []), w')
      | (w', Exited, out) => Ok (true, truncate_partial_line (read_output size out [] []), w')
      end
  end.

Variable cf : fwconf.

(** One command of which only the success is looked at: zero_cmd_buffers, snprintf into
    cmd_buf, run_extcmd *)
Definition command (args : bytes) (w : W) : outcome (bool * W) :=
  get (ok, _, w') <- run_extcmd w (fmt (f_cmd cf ++ $ " " ++ args)) CMD_BUFSIZE;
  Ok (ok, w').

(** rule_exists_chk_support, fw_util_iptables.c:186-219 *)
Definition rule_exists (chain rule : bytes) (w : W) : outcome (bool * W) :=
  get (ok, err, w') <- run_extcmd w (fmt (f_cmd cf ++ $ " -C " ++ chain ++ $ " " ++ rule)) CMD_BUFSIZE;
  Ok (negb (ok && negb (zlen (chop_newline err) =? 0)), w').

(** chain_exists, fw_util_iptables.c:430-460: the return value is res, which is 0 on success *)
Definition chain_exists (c : chain) (w : W) : outcome (bool * W) :=
  get (ok, w') <- command ($ "-t " ++ c_table c ++ $ " -L " ++ c_to c ++ $ " -n") w;
  Ok (negb ok, w').

(** create_chain, fw_util_iptables.c:762-791 *)
Definition create_chain (c : chain) (w : W) : outcome (bool * W) :=
  command ($ "-t " ++ c_table c ++ $ " -N " ++ c_to c) w.

(** jump_rule_exists_chk_support, fw_util_iptables.c:462-484 *)
Definition jump_rule_exists (c : chain) (w : W) : outcome (bool * W) :=
  rule_exists (c_from c) (fmt ($ "-t " ++ c_table c ++ $ " -j " ++ c_to c)) w.

(** add_jump_rule, fw_util_iptables.c:395-428 *)
Definition add_jump_rule (c : chain) (w : W) : outcome (bool * W) :=
  command ($ "-t " ++ c_table c ++ $ " -I " ++ c_from c ++ $ " " ++ dec_i (c_jump c) ++ $ " -j " ++ c_to c) w.

(** mk_chain, fw_util_iptables.c:793-810: the number of errors *)
Definition mk_chain (c : chain) (w : W) : outcome (Z * W) :=
  get (e1, w) <- (get (there, w) <- chain_exists c w;
                  if there then Ok (0, w)
                  else get (ok, w) <- create_chain c w; Ok (if ok then 0 else 1, w));
  get (e2, w) <- (get (there, w) <- jump_rule_exists c w;
                  if there then Ok (0, w)
                  else get (ok, w) <- add_jump_rule c w; Ok (if ok then 0 else 1, w));
  Ok (e1 + e2, w).

(** create_rule, fw_util_iptables.c:1149-1182.  Both res = 1 and the error codes are true. *)
Definition create_rule (to rule : bytes) (w : W) : outcome (bool * W) :=
  get (_, w') <- command ((if f_prepend cf then $ "-I " else $ "-A ") ++ to ++ $ " " ++ rule) w;
  Ok (true, w').

(** The firewall as the daemon knows it, and the machine *)
Definition state : Type := list chain * W.

(** ipt_rule, fw_util_iptables.c:1184-1246; [i] is the chain, [rule] the rule before it is cut
    to the buffer *)
Definition ipt_rule (i : nat) (rule : bytes) (e now : Z) (s : state) : outcome state :=
  let '(cs, w) := s in
  let c := chain_at i cs in
  let rule := fmt rule in
  get (_, w) <- mk_chain c w;
  get (there, w) <- rule_exists (c_to c) rule w;
  if there then Ok (cs, w)
  else
    get (made, w) <- create_rule (c_to c) rule w;
    if made then
      let next := if (c_next c <? now) || (e <? c_next c) then e else c_next c in
      Ok (set_chain i (mkChain (c_target c) (c_table c) (c_from c) (c_jump c) (c_to c) (c_active c + 1) next) cs, w)
    else Ok (cs, w).

(** forward_access_rule, fw_util_iptables.c:1248-1299 *)
Definition forward_access_rule (nc : nat_conf) (src : bytes) (proto nat_port e now : Z) (s : state) : outcome state :=
  let c := chain_at 2 (fst s) in
  ipt_rule 2 (fmt (if n_forward_all nc then FWD_ALL_RULE_ARGS (c_table c) src e (c_target c)
                   else FWD_RULE_ARGS (c_table c) proto src nat_port e (c_target c))) e now s.

(** dnat_rule, fw_util_iptables.c:1301-1358 *)
Definition dnat_rule (nc : nat_conf) (src dst nat_ip : bytes) (nat_port proto port e now : Z) (s : state) : outcome state :=
  let c := chain_at 3 (fst s) in
  ipt_rule 3 (fmt (if n_forward_all nc then DNAT_ALL_RULE_ARGS (c_table c) src dst e (c_target c) nat_ip
                   else DNAT_RULE_ARGS (c_table c) proto src dst port e (c_target c) nat_ip nat_port)) e now s.

(** snat_rule, fw_util_iptables.c:1360-1470: the chain used and the text of snat_target *)
Definition snat_target (nc : nat_conf) (port : Z) : nat * bytes :=
  let static ip := (4%nat, snprintf (SNAT_TARGET_BUFSIZE - 1) ($ "--to-source " ++ ip)) in
  if n_snat nc && is_valid_ipv4_addr (n_snat_ip nc) (zlen (n_snat_ip nc)) then static (n_snat_ip nc)
  else if negb (n_forward_all nc) && n_snat nc && n_masq nc then (5%nat, $ "--to-ports " ++ dec_i port)
  else if is_valid_ipv4_addr (f_snat_ip cf) (zlen (f_snat_ip cf)) then static (f_snat_ip cf)
  else (5%nat, if n_forward_all nc then $ " " else $ "--to-ports " ++ dec_i port).
Definition snat_rule (nc : nat_conf) (src nat_ip : bytes) (nat_port proto port e now : Z) (s : state) : outcome state :=
  let '(i, how) := snat_target nc port in
  let c := chain_at i (fst s) in
  ipt_rule i (fmt (if n_forward_all nc then SNAT_ALL_RULE_ARGS (c_table c) src e (c_target c) how
                   else SNAT_RULE_ARGS (c_table c) proto nat_ip nat_port e (c_target c) how)) e now s.

(** ipv4_resolve, common/fko_util.c:1082-1153, with getaddrinfo and inet_ntop as a parameter *)
Variable resolve : bytes -> option bytes.

(** process_spa_request, fw_util_iptables.c:1509-1570: nat_ip and nat_port; None: return *)
Definition nat_address (nc : nat_conf) (nat : bytes) : outcome (option (bytes * Z)) :=
  if n_force nc then Ok (Some (ztake (MAX_IPV4_STR_LEN - 1) (n_force_ip nc), n_force_port nc))
  else
    match index_of ","%byte nat with
    | None => Ok None
    | Some k =>
        let host := firstn k nat in
        if negb (zlen host <=? MAX_HOSTNAME_LEN) then Ok None
        else if zlen host + 1 >? MAX_HOSTNAME_LEN then Fault
        else
          get ip <- (if is_valid_ipv4_addr host (zlen host) then Ok (Some (ztake (MAX_IPV4_STR_LEN - 1) host))
                     else if f_nat_dns cf then
                       get v <- is_valid_hostname host (zlen host);
                       Ok (if v then resolve host else None)
                     else Ok None);
          match ip with
          | None => Ok None
          | Some ip =>
              match strtol_wrapper (skipn (S k) nat) 0 MAX_PORT with
              | (p, e) => Ok (if strtol_ok e then Some (ip, p) else None)
              end
          end
    end.

(** The while loop over the port list, fw_util_iptables.c:1622-1649 *)
Fixpoint open_ports (src dst : bytes) (pl : list (Z * Z)) (e now : Z) (s : state) : outcome state :=
  match pl with
  | [] => Ok s
  | (proto, port) :: r =>
      let c := chain_at 0 (fst s) in
      get s <- ipt_rule 0 (RULE_ARGS (c_table c) proto src dst port e (c_target c)) e now s;
      let o := chain_at 1 (fst s) in
      get s <- (if negb (zlen (c_to o) =? 0)
                then ipt_rule 1 (OUT_RULE_ARGS (c_table o) proto src dst port e (c_target o)) e now s
                else Ok s);
      open_ports src dst r e now s
  end.

(** process_spa_request, fw_util_iptables.c:1476-1658; [now] is the clock.  The return value
    is not modelled.  An access message without a port list ends it; nat_access is there
    whenever the message type asks for it. *)
Definition process_spa_request (nc : nat_conf) (d : spa_data) (now : Z) (s : state) : outcome state :=
  match expand_acc_port_list (d_remain d) with
  | None | Some [] => Ok s
  | Some (((proto, port) :: _) as pl) =>
      let e := u32 (now + d_timeout d) in
      let src := d_use d in
      let dst := if f_use_dst cf then d_pkt_dst d else IPT_ANY_IP in
      let local := (d_type d =? FKO_LOCAL_NAT_ACCESS_MSG) || (d_type d =? FKO_CLIENT_TIMEOUT_LOCAL_NAT_ACCESS_MSG) in
      if local || (d_type d =? FKO_NAT_ACCESS_MSG) || (d_type d =? FKO_CLIENT_TIMEOUT_NAT_ACCESS_MSG) || n_force nc
      then
        get a <- nat_address nc (match d_nat d with Some n => n | None => [] end);
        match a with
        | None => Ok s
        | Some (nat_ip, nat_port) =>
            get s <- (if local then
                        let c := chain_at 0 (fst s) in
                        ipt_rule 0 (RULE_ARGS (c_table c) proto src dst nat_port e (c_target c)) e now s
                      else if negb (zlen (c_to (chain_at 2 (fst s))) =? 0)
                      then forward_access_rule nc src proto nat_port e now s
                      else Ok s);
            get s <- (if negb (zlen (c_to (chain_at 3 (fst s))) =? 0) && negb (n_no_dnat nc)
                      then dnat_rule nc src dst nat_ip nat_port proto port e now s
                      else Ok s);
            if n_snat nc || f_snat cf then snat_rule nc src nat_ip nat_port proto port e now s else Ok s
        end
      else open_ports src dst pl e now s
  end.

(** The text of exp_str, fw_util_iptables.c:1682-1687; [s] is the text from ndx on *)
Definition exp_str (s : bytes) : bytes :=
  let t := ztake 11 s in
  chop_spaces (match index_of "*"%byte t with Some k => firstn k t | None => t end).

(** active_rules-- if positive *)
Definition less (n : Z) : Z := if n >? 0 then n - 1 else n.

(** Local variables of rm_expired_rules, the active_rules of the chain, and the machine *)
Record rm_state := mkRm { r_off : Z; r_min : Z; r_active : Z; r_w : W }.

(** One round of the while loop of rm_expired_rules, fw_util_iptables.c:1673-1794.  [before] is
    the text before the expire comment, reversed, [s] the text after its prefix.  The boolean
    is false if the loop is left by break. *)
Definition expire_one (c : chain) (now : Z) (before s : bytes) (st : rm_state) : outcome (bool * rm_state) :=
  let x := exp_str s in
  if negb (is_digits x) then Ok (true, st)
  else
    let e := digits_val 0 x in
    let broken := Ok (false, mkRm (r_off st) (r_min st) (less (r_active st)) (r_w st)) in
    if e <=? now then
      match index_of x0a before with
      | None => broken
      | Some k =>
          let line := rev (firstn k before) ++ EXPIRE_COMMENT_PREFIX ++ s in
          match index_of " "%byte line with
          | None => broken
          | Some j =>
              if Z.of_nat j + 1 >? 6 then Fault
              else
                match strtol_wrapper (firstn j line) (r_off st) RCHK_MAX_IPT_RULE_NUM with
                | (n, err) =>
                    if negb (strtol_ok err) then broken
                    else
                      get (ok, w) <- command ($ "-t " ++ c_table c ++ $ " -D " ++ c_to c ++ $ " " ++ dec_i (n - r_off st)) (r_w st);
                      Ok (true, if ok then mkRm (r_off st + 1) (r_min st) (less (r_active st)) w
                                else mkRm (r_off st) (r_min st) (r_active st) w)
                end
          end
      end
    else Ok (true, mkRm (r_off st) (if r_min st <? e then r_min st else e) (r_active st) (r_w st)).

(** The while loop, with strstr: [s] is the text from some position on, [before] the text
    before it, reversed; [skip] characters of [s] belong to a prefix already found. *)
Fixpoint expire_loop (c : chain) (now : Z) (skip : nat) (before s : bytes) (st : rm_state) : outcome rm_state :=
  match s with
  | [] => Ok st
  | b :: r =>
      match skip with
      | S k => expire_loop c now k (b :: before) r st
      | O =>
          if is_prefix EXPIRE_COMMENT_PREFIX s then
            get (go, st) <- expire_one c now before (skipn 5 s) st;
            if go then expire_loop c now 4 (b :: before) r st else Ok st
          else expire_loop c now 0 (b :: before) r st
      end
  end.

(** rm_expired_rules, fw_util_iptables.c:1660-1813, on the text [out] of the listing *)
Definition rm_expired_rules (out : bytes) (now : Z) (c : chain) (w : W) : outcome (chain * W) :=
  get st <- expire_loop c now 0 [] out (mkRm 0 0 (c_active c) w);
  let next := if r_active st <? 1 then 0 else if negb (r_min st =? 0) then r_min st else c_next c in
  Ok (mkChain (c_target c) (c_table c) (c_from c) (c_jump c) (c_to c) (r_active st) next, r_w st).

(** One round of the loop of check_firewall_rules, fw_util_iptables.c:1835-1894, for chain [i].
    The test of the chain name looks at its character number [i]. *)
Definition check_chain (all : bool) (now : Z) (i : nat) (c : chain) (w : W) : outcome (chain * W) :=
  if negb all && ((c_active c =? 0) || (c_next c >? now)) then Ok (c, w)
  else if (zlen (c_table c) =? 0) || beq (nth i (c_to c) x00) x00 then Ok (c, w)
  else
    get (ok, out, w) <- run_extcmd w (fmt (f_cmd cf ++ $ " -t " ++ c_table c ++ $ " -L " ++ c_to c ++ $ " --line-numbers -n"))
                                   STANDARD_CMD_OUT_BUFSIZE;
    let out := chop_newline out in
    if negb ok then Ok (c, w)
    else match strstr (fun b => b) EXPIRE_COMMENT_PREFIX out with
         | None => Ok (mkChain (c_target c) (c_table c) (c_from c) (c_jump c) (c_to c) (less (c_active c)) (c_next c), w)
         | Some _ => rm_expired_rules out now c w
         end.
Fixpoint check_chains (all : bool) (now : Z) (i : nat) (cs : list chain) (w : W) : outcome (list chain * W) :=
  match cs with
  | [] => Ok ([], w)
  | c :: r => get (c', w) <- check_chain all now i c w;
              get (r', w) <- check_chains all now (S i) r w;
              Ok (c' :: r', w)
  end.
(** check_firewall_rules, fw_util_iptables.c:1818-1898 *)
Definition check_firewall_rules (all : bool) (now : Z) (s : state) : outcome state :=
  check_chains all now 0 (fst s) (snd s).

(** delete_all_chains, fw_util_iptables.c:610-699, for one chain *)
Fixpoint delete_jumps (tries : nat) (c : chain) (w : W) : outcome W :=
  match tries with
  | O => Ok w
  | S n =>
      get (there, w) <- jump_rule_exists c w;
      if there then
        get (_, w) <- command ($ "-t " ++ c_table c ++ $ " -D " ++ c_from c ++ $ " -j " ++ c_to c) w;
        delete_jumps n c w
      else Ok w
  end.
Definition delete_chain (c : chain) (w : W) : outcome W :=
  if zlen (c_target c) =? 0 then Ok w
  else
    get w <- delete_jumps 10 c w;
    get (_, w) <- command ($ "-t " ++ c_table c ++ $ " -F " ++ c_to c) w;
    get (_, w) <- command ($ "-t " ++ c_table c ++ $ " -X " ++ c_to c) w;
    Ok w.
Fixpoint delete_all_chains (cs : list chain) (w : W) : outcome W :=
  match cs with
  | [] => Ok w
  | c :: r => get w <- delete_chain c w; delete_all_chains r w
  end.
(** create_fw_chains, fw_util_iptables.c:812-826: the number of errors *)
Fixpoint create_fw_chains (cs : list chain) (w : W) : outcome (Z * W) :=
  match cs with
  | [] => Ok (0, w)
  | c :: r =>
      get (e, w) <- (if zlen (c_target c) =? 0 then Ok (0, w) else mk_chain c w);
      get (e', w) <- create_fw_chains r w;
      Ok (e + e', w)
  end.
End Machine.

(** The loop of set_fw_chain_conf, fw_util_iptables.c:955-982: [i] and [j] as there, [cur] the
    field being filled, [fs] the fields before it.  Storing beyond chain_fields or tbuf is
    undefined. *)
Fixpoint chain_fields (s cur : bytes) (i j : Z) (fs : list bytes) : outcome (option (list bytes)) :=
  match s with
  | [] => Ok (if j =? FW_NUM_CHAIN_FIELDS then Some (fs ++ [cur]) else None)
  | c :: r =>
      if beq c " "%byte then chain_fields r cur i j fs
      else if i >=? MAX_LINE_LEN then Fault
      else if beq c ","%byte then
        if j >=? FW_NUM_CHAIN_FIELDS then Fault
        else chain_fields r [] (i + 1) (j + 1) (fs ++ [cur])
      else if beq c "_"%byte || isalnum c then chain_fields r (cur ++ [c]) (i + 1) j fs
      else Ok None
  end.
(** set_fw_chain_conf, fw_util_iptables.c:931-1024; None: return 0.  active_rules and
    next_expire are 0 from the memset in fw_config_init. *)
Definition set_fw_chain_conf (s : bytes) : outcome (option chain) :=
  get fs <- chain_fields s [] 0 1 [];
  match fs with
  | Some [target; table; from; jump; to; pos] =>
      match strtol_wrapper jump 0 RCHK_MAX_IPT_RULE_NUM, strtol_wrapper pos 0 RCHK_MAX_IPT_RULE_NUM with
      | (j, STRTOL_OK), (_, STRTOL_OK) =>
          Ok (Some (mkChain (ztake (MAX_NAME_LEN - 1) target) (ztake (MAX_NAME_LEN - 1) table)
                            (ztake (MAX_NAME_LEN - 1) from) j (ztake (MAX_NAME_LEN - 1) to) 0 0))
      | _, _ => Ok None
      end
  | _ => Ok None
  end.
(** validate_ipt_chain_conf, fw_util_iptables.c:1900-1931 *)
Fixpoint validate_loop (s : bytes) (j : Z) : bool :=
  match s with
  | [] => j =? FW_NUM_CHAIN_FIELDS
  | c :: r =>
      let j := if beq c ","%byte then j + 1 else j in
      if beq c " "%byte || beq c ","%byte || beq c "_"%byte || isalnum c then validate_loop r j else false
  end.
Definition validate_ipt_chain_conf (s : bytes) : bool := validate_loop s 1.

(** One round of the main loop, server/udp_server.c:126-143 and server/pcap_capture.c:293-310:
    whether all chains are gone through, and check_rules_ctr afterwards *)
Definition rules_tick (threshold ctr : Z) : bool * Z :=
  if threshold >? 0 then
    if (ctr + 1) mod threshold =? 0 then (true, 0) else (false, ctr + 1)
  else (false, ctr).
Definition check_round {W} (exec : W -> list bytes -> W * ended * bytes) (cf : fwconf) (threshold now : Z) (x : Z * state W)
  : outcome (Z * state W) :=
  let '(all, ctr) := rules_tick threshold (fst x) in
  get s <- check_firewall_rules W exec cf all now (snd x);
  Ok (ctr, s).
