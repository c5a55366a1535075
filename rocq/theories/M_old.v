(** Model of server/fw_util_iptables.c with an iptables that has no -C option: the search for a
    rule in the listing of its chain.  The rest is as in M_fw.
    Simplified: the fdopen of the pipe succeeds; ports and protocols are not negative. *)
From Verif Require Import Bytes M_util M_message M_codec M_access M_cycle M_incoming M_packet M_fw M_extcmd.
From Coq Require Import Init.Byte List ZArith Bool.
Import ListNotations.
Open Scope Z_scope.

(** What rule_exists_no_chk_support looks for.  NULL pointers are None; 0 is ANY_PROTO, ANY_PORT
    and NAT_ANY_PORT, common/common.h:149-151. *)
Record wanted := mkWant {
  q_proto : Z; q_src : option bytes; q_dst : option bytes; q_port : Z; q_nat : option bytes; q_nat_port : Z;
  q_exp : Z; q_target : bytes }.

(** strstr(line, sub) != NULL *)
Definition has_text (sub line : bytes) : bool :=
  match strstr (fun b => b) sub line with Some _ => true | None => false end.
(** proto_search, fw_util_iptables.c:100-107 *)
Definition proto_search (p : Z) : bytes :=
  if p =? 6 then $ " tcp " else if p =? 17 then $ " udp " else if p =? 1 then $ " icmp " else fmt ($ " " ++ dec p ++ $ " ").
(** dstip_search after lines 116-120: with a NAT address it is overwritten *)
Definition dstip_search (q : wanted) : bytes :=
  match q_nat q with
  | Some n => fmt ($ " to:" ++ n)
  | None => match q_dst q with Some d => fmt ($ " " ++ d ++ $ " ") | None => [] end
  end.
(** fw_util_iptables.c:136-143; natip_search is never written *)
Definition line_matches (q : wanted) (line : bytes) : bool :=
  ((q_proto q =? 0) || has_text (proto_search (q_proto q)) line) &&
  (match q_src q with None => true | Some s => has_text (fmt ($ " " ++ s ++ $ " ")) line end) &&
  (match q_dst q with None => true | Some _ => has_text (dstip_search q) line end) &&
  (match q_nat q with None => true | Some _ => has_text [] line end) &&
  has_text (fmt ($ " " ++ q_target q ++ $ " ")) line &&
  ((q_port q =? 0) || has_text (fmt ($ "dpt:" ++ dec (q_port q) ++ $ " ")) line).
(** fw_util_iptables.c:150-173 *)
Definition nat_port_matches (port : Z) (line : bytes) : bool :=
  match strstr (fun b => b) ($ " to:") line with
  | None => false
  | Some t =>
      let t := skipn 4 t in
      if has_text ($ " to:") t then false
      else match strstr (fun b => b) (fmt ($ ":" ++ dec port)) t with
           | None => false
           | Some u => match skipn (List.length (fmt ($ ":" ++ dec port))) u with
                       | [] => true
                       | c :: _ => beq c x00 || beq c " "%byte
                       end
           end
  end.
(** rule_exists_no_chk_support, fw_util_iptables.c:61-185, from the output of the listing on *)
Definition rule_listed (q : wanted) (out : bytes) : bool :=
  let '(n, buf) := search_output (fmt (dec (q_exp q) ++ $ " ")) CMD_BUFSIZE out in
  let line := chop_newline buf in
  negb (n =? 0) && line_matches q line && ((q_nat_port q =? 0) || nat_port_matches (q_nat_port q) line).

Section Machine.
Variable W : Type.
Variable exec : W -> list bytes -> W * ended * bytes.
Variable cf : fwconf.

(** The output of a command, if it could be started; a search that fails otherwise gives a line
    that is empty, which matches nothing *)
Definition output (w : W) (cmd : bytes) : outcome (option bytes * W) :=
  get args <- strtoargv cmd;
  Ok (match args with
      | None => (None, w)
      | Some argv =>
          match exec w argv with
          | (w', NotStarted, _) => (None, w')
          | (w', _, out) => (Some out, w')
          end
      end).
Definition list_cmd (table chain : bytes) : bytes :=
  fmt (f_cmd cf ++ $ " " ++ $ "-t " ++ table ++ $ " -L " ++ chain ++ $ " --line-numbers -n").

(** rule_exists, fw_util_iptables.c:224-253 *)
Definition rule_exists_old (c : chain) (q : wanted) (w : W) : outcome (bool * W) :=
  let q := mkWant (q_proto q) (q_src q) (if f_use_dst cf then q_dst q else None) (q_port q) (q_nat q) (q_nat_port q) (q_exp q) (q_target q) in
  get (out, w) <- output w (list_cmd (c_table c) (c_to c));
  Ok (match out with None => false | Some out => rule_listed q out end, w).

(** jump_rule_exists_no_chk_support, fw_util_iptables.c:484-512 *)
Definition jump_rule_exists_old (c : chain) (w : W) : outcome (bool * W) :=
  get (out, w) <- output w (list_cmd (c_table c) (c_from c));
  Ok (match out with None => false | Some out => fst (search_output (fmt ($ " " ++ c_to c ++ $ " ")) 0 out) >? 0 end, w).

(** mk_chain, fw_util_iptables.c:793-810, its errors are not looked at by ipt_rule *)
Definition mk_chain_old (c : chain) (w : W) : outcome W :=
  get w <- (get (there, w) <- chain_exists W exec cf c w;
            if there then Ok w else get (_, w) <- create_chain W exec cf c w; Ok w);
  get (there, w) <- jump_rule_exists_old c w;
  if there then Ok w else get (_, w) <- add_jump_rule W exec cf c w; Ok w.

(** ipt_rule, fw_util_iptables.c:1184-1246 *)
Definition ipt_rule_old (i : nat) (rule : bytes) (q : wanted) (e now : Z) (s : state W) : outcome (state W) :=
  let '(cs, w) := s in
  let c := chain_at i cs in
  let rule := fmt rule in
  get w <- mk_chain_old c w;
  get (there, w) <- rule_exists_old c q w;
  if there then Ok (cs, w)
  else
    get (made, w) <- create_rule W exec cf (c_to c) rule w;
    if made then
      let next := if (c_next c <? now) || (e <? c_next c) then e else c_next c in
      Ok (set_chain i (mkChain (c_target c) (c_table c) (c_from c) (c_jump c) (c_to c) (c_active c + 1) next) cs, w)
    else Ok (cs, w).

(** forward_access_rule, fw_util_iptables.c:1248-1299 *)
Definition forward_access_rule_old (nc : nat_conf) (src : bytes) (proto nat_port e now : Z) (s : state W) : outcome (state W) :=
  let c := chain_at 2 (fst s) in
  if n_forward_all nc
  then ipt_rule_old 2 (fmt (FWD_ALL_RULE_ARGS (c_table c) src e (c_target c))) (mkWant 0 (Some src) None 0 None 0 e (c_target c)) e now s
  else ipt_rule_old 2 (fmt (FWD_RULE_ARGS (c_table c) proto src nat_port e (c_target c))) (mkWant proto (Some src) None nat_port None 0 e (c_target c)) e now s.
(** dnat_rule, fw_util_iptables.c:1301-1358 *)
Definition dnat_rule_old (nc : nat_conf) (src dst nat_ip : bytes) (nat_port proto port e now : Z) (s : state W) : outcome (state W) :=
  let c := chain_at 3 (fst s) in
  if n_forward_all nc
  then ipt_rule_old 3 (fmt (DNAT_ALL_RULE_ARGS (c_table c) src dst e (c_target c) nat_ip)) (mkWant 0 (Some src) None 0 None 0 e (c_target c)) e now s
  else ipt_rule_old 3 (fmt (DNAT_RULE_ARGS (c_table c) proto src dst port e (c_target c) nat_ip nat_port))
         (mkWant proto (Some src) (Some dst) port (Some nat_ip) nat_port e (c_target c)) e now s.
(** snat_rule, fw_util_iptables.c:1360-1470 *)
Definition snat_rule_old (nc : nat_conf) (src nat_ip : bytes) (nat_port proto port e now : Z) (s : state W) : outcome (state W) :=
  let '(i, how) := snat_target cf nc port in
  let c := chain_at i (fst s) in
  if n_forward_all nc
  then ipt_rule_old i (fmt (SNAT_ALL_RULE_ARGS (c_table c) src e (c_target c) how)) (mkWant 0 (Some src) None 0 None 0 e (c_target c)) e now s
  else ipt_rule_old i (fmt (SNAT_RULE_ARGS (c_table c) proto nat_ip nat_port e (c_target c) how))
         (mkWant proto (Some src) None nat_port (Some nat_ip) nat_port e (c_target c)) e now s.

(** The while loop over the port list, fw_util_iptables.c:1622-1649 *)
Fixpoint open_ports_old (src dst : bytes) (pl : list (Z * Z)) (e now : Z) (s : state W) : outcome (state W) :=
  match pl with
  | [] => Ok s
  | (proto, port) :: r =>
      let c := chain_at 0 (fst s) in
      get s <- ipt_rule_old 0 (RULE_ARGS (c_table c) proto src dst port e (c_target c))
                 (mkWant proto (Some src) (Some dst) port None 0 e (c_target c)) e now s;
      let o := chain_at 1 (fst s) in
      get s <- (if negb (zlen (c_to o) =? 0)
                then ipt_rule_old 1 (OUT_RULE_ARGS (c_table o) proto src dst port e (c_target o))
                       (mkWant proto (Some src) (Some dst) port None 0 e (c_target o)) e now s
                else Ok s);
      open_ports_old src dst r e now s
  end.

Variable resolve : bytes -> option bytes.
(** process_spa_request, fw_util_iptables.c:1476-1658 *)
Definition process_spa_request_old (nc : nat_conf) (d : spa_data) (now : Z) (s : state W) : outcome (state W) :=
  match expand_acc_port_list (d_remain d) with
  | None | Some [] => Ok s
  | Some (((proto, port) :: _) as pl) =>
      let e := u32 (now + d_timeout d) in
      let src := d_use d in
      let dst := if f_use_dst cf then d_pkt_dst d else IPT_ANY_IP in
      let local := (d_type d =? FKO_LOCAL_NAT_ACCESS_MSG) || (d_type d =? FKO_CLIENT_TIMEOUT_LOCAL_NAT_ACCESS_MSG) in
      if local || (d_type d =? FKO_NAT_ACCESS_MSG) || (d_type d =? FKO_CLIENT_TIMEOUT_NAT_ACCESS_MSG) || n_force nc
      then
        get a <- nat_address cf resolve nc (match d_nat d with Some n => n | None => [] end);
        match a with
        | None => Ok s
        | Some (nat_ip, nat_port) =>
            get s <- (if local then
                        let c := chain_at 0 (fst s) in
                        ipt_rule_old 0 (RULE_ARGS (c_table c) proto src dst nat_port e (c_target c))
                          (mkWant proto (Some src) (Some dst) nat_port (Some nat_ip) nat_port e (c_target c)) e now s
                      else if negb (zlen (c_to (chain_at 2 (fst s))) =? 0)
                      then forward_access_rule_old nc src proto nat_port e now s
                      else Ok s);
            get s <- (if negb (zlen (c_to (chain_at 3 (fst s))) =? 0) && negb (n_no_dnat nc)
                      then dnat_rule_old nc src dst nat_ip nat_port proto port e now s
                      else Ok s);
            if n_snat nc || f_snat cf then snat_rule_old nc src nat_ip nat_port proto port e now s else Ok s
        end
      else open_ports_old src dst pl e now s
  end.
End Machine.
