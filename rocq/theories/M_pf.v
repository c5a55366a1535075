(** Model of server/fw_util_pf.c, the back end for the packet filter pf, with the commands of
    server/extcmd.c (built with execvp) it uses.
    The program pfctl is a pair of parameters on some state [W] of the machine: [exec] runs it
    and gives its output, [feed] runs it with a text on its standard input.
    Not modelled: log messages and fw_dump_rules. *)
From Verif Require Import Bytes M_util M_message M_codec M_access M_cycle M_incoming M_packet M_fw M_extcmd.
From Coq Require Import Init.Byte List ZArith Bool.
Import ListNotations.
Open Scope Z_scope.

Definition MAX_PF_ANCHOR_LEN : Z := 64.         (* server/fwknopd_common.h:583 *)
Definition MAX_PF_ANCHOR_SEARCH_LEN : Z := 75.  (* server/fw_util_pf.h:33 *)
Definition MAX_PF_NEW_RULE_LEN : Z := 140.      (* server/fw_util_pf.h:34 *)
Definition MAX_PATH_LEN : Z := 1024.            (* server/fwknopd_common.h *)
Definition PF_ANY_IP : bytes := $ "any".        (* server/fw_util_pf.h:53 *)

(** struct fw_config of the pf build, server/fwknopd_common.h:585-591: the texts, and the two
    counters *)
Record pfconf := mkPf { p_cmd : bytes; p_anchor : bytes; p_use_dst : bool }.
Record counters := mkCnt { k_active : Z; k_next : Z }.

(** fw_config_init, fw_util_pf.c:139-164, of FIREWALL_EXE, PF_ANCHOR_NAME and
    ENABLE_DESTINATION_RULE *)
Definition fw_config_init (exe anchor dst : bytes) : pfconf * counters :=
  (mkPf (ztake (MAX_PATH_LEN - 1) exe) (ztake (MAX_PF_ANCHOR_LEN - 1) anchor)
        (match dst with c :: _ => beq c "Y"%byte || beq c "y"%byte | [] => false end),
   mkCnt 0 0).

(** What expand_acc_port_list (access.c:703-746) leaves in the list, whether it returns 1 or
    not: process_spa_request does not look at the return value (fw_util_pf.c:211).  Arguments
    as for [expand_list]. *)
Fixpoint entries_read (s cur : bytes) (l : list (Z * Z)) : list (Z * Z) :=
  match s with
  | [] =>
      let it := skip_space cur in
      if zlen it + 1 >=? ACCESS_BUF_LEN then l
      else match add_port_list_ent it with Some e => l ++ [e] | None => l end
  | c :: s' =>
      if beq c ","%byte then
        let it := skip_space cur in
        if zlen it + 1 >=? ACCESS_BUF_LEN then l
        else match add_port_list_ent it with
             | Some e => entries_read s' [] (l ++ [e])
             | None => l
             end
      else entries_read s' (cur ++ [c]) l
  end.

(** PF_ADD_RULE_ARGS with the line feed, server/fw_util_pf.h:44, fw_util_pf.c:249-255 *)
Definition new_rule (proto : Z) (src dst : bytes) (port e : Z) : bytes :=
  snprintf (MAX_PF_NEW_RULE_LEN - 1)
    ($ "pass in quick proto " ++ dec (u32 proto) ++ $ " from " ++ src ++ $ " to " ++ dst ++ $ " port " ++ dec (u32 port) ++
     $ " keep state label " ++ EXPIRE_COMMENT_PREFIX ++ dec e ++ [x0a]).

Section Machine.
Variable W : Type.
Variable exec : W -> list bytes -> W * ended * bytes.
(** The state after pfctl was run, and whether the pipe, the process and the writing to it
    succeeded *)
Variable feed : W -> list bytes -> bytes -> W * bool.
Variable cf : pfconf.

(** _run_extcmd_write, server/extcmd.c:585-687: how pfctl ends is not looked at.  The signal
    SIGPIPE, sent when pfctl ends before it has read its input, is not modelled. *)
Definition run_extcmd_write (w : W) (cmd text : bytes) : outcome (bool * W) :=
  get args <- strtoargv cmd;
  Ok (match args with
      | None => (false, w)
      | Some argv => let '(w', ok) := feed w argv text in (ok, w')
      end).

(** search_extcmd: _run_extcmd with a text to search for, extcmd.c:118-373 *)
Definition search_extcmd (w : W) (cmd sub : bytes) : outcome (Z * W) :=
  get args <- strtoargv cmd;
  Ok (match args with
      | None => (EXTCMD_ARGV_ERROR, w)
      | Some argv =>
          match exec w argv with
          | (w', NotStarted, _) => (EXTCMD_FORK_ERROR, w')
          | (w', _, out) => (fst (search_output sub 0 out), w')
          end
      end).

(** The commands of server/fw_util_pf.h:44-52 *)
Definition list_cmd : bytes := fmt (p_cmd cf ++ $ " " ++ $ "-a " ++ p_anchor cf ++ $ " -s rules").
Definition write_cmd : bytes := fmt (p_cmd cf ++ $ " " ++ $ "-a " ++ p_anchor cf ++ $ " -f -").
Definition flush_cmd : bytes := fmt (p_cmd cf ++ $ " " ++ $ "-a " ++ p_anchor cf ++ $ " -F all").
Definition anchors_cmd : bytes := fmt (p_cmd cf ++ $ " " ++ $ "-s Anchor").

(** anchor_active, fw_util_pf.c:90-117 *)
Definition anchor_active (w : W) : outcome (bool * W) :=
  get (n, w) <- search_extcmd w anchors_cmd (snprintf (MAX_PF_ANCHOR_SEARCH_LEN - 1) (p_anchor cf ++ [x0a]));
  Ok (n >? 0, w).

(** delete_all_anchor_rules, fw_util_pf.c:119-137 *)
Definition delete_all_anchor_rules (w : W) : outcome W :=
  get (_, _, w) <- run_extcmd W exec w flush_cmd CMD_BUFSIZE;
  Ok w.

(** fw_initialize, fw_util_pf.c:166-182: whether it returns 1 *)
Definition fw_initialize (w : W) : outcome (bool * W) :=
  get (act, w) <- anchor_active w;
  if act then get w <- delete_all_anchor_rules w; Ok (true, w) else Ok (false, w).
(** fw_cleanup, fw_util_pf.c:184-189 *)
Definition fw_cleanup (w : W) : outcome W := delete_all_anchor_rules w.

(** The while loop of process_spa_request, fw_util_pf.c:230-300; the number is the return
    value *)
Fixpoint add_rules (src dst : bytes) (e now : Z) (pl : list (Z * Z)) (k : counters) (w : W) : outcome (Z * counters * W) :=
  match pl with
  | [] => Ok (0, k, w)
  | (proto, port) :: r =>
      get (_, out, w) <- run_extcmd W exec w list_cmd STANDARD_CMD_OUT_BUFSIZE;
      let rule := new_rule proto src dst port e in
      if zlen out + zlen rule <? STANDARD_CMD_OUT_BUFSIZE then
        get (ok, w) <- run_extcmd_write w write_cmd (out ++ rule);
        if ok then
          add_rules src dst e now r
            (mkCnt ((k_active k + 1) mod 65536)
                   (if (k_next k <? now) || (e <? k_next k) then e else k_next k)) w
        else Ok (-1, k, w)
      else Ok (0, k, w)
  end.

(** process_spa_request, fw_util_pf.c:195-332 *)
Definition process_spa_request (d : spa_data) (now : Z) (k : counters) (w : W) : outcome (Z * counters * W) :=
  let pl := entries_read (d_remain d) [] [] in
  if (d_type d =? FKO_ACCESS_MSG) || (d_type d =? FKO_CLIENT_TIMEOUT_ACCESS_MSG)
  then add_rules (d_use d) (if p_use_dst cf then d_pkt_dst d else PF_ANY_IP) (u32 (now + d_timeout d)) now pl k w
  else Ok (-1, k, w).

(** exp_str, fw_util_pf.c:404-406; [s] is the text from ndx on.  chop_char: common/fko_util.c:730-739 *)
Definition chop_quote (s : bytes) : bytes :=
  if (zlen s >? 1) && beq (last s x00) """"%byte then removelast s else s.
Definition exp_text (s : bytes) : bytes := chop_quote (chop_spaces (ztake 11 s)).

(** Local variables of check_firewall_rules: anchor_rules_copy up to anchor_ndx, is_delete,
    min_exp; and active_rules *)
Record ck := mkCk { c_copy : bytes; c_del : bool; c_min : Z; c_act : Z }.

Definition line_start (s : bytes) : bytes := match index_of x0a s with Some k => firstn k s | None => s end.

(** One round of the while loop, fw_util_pf.c:393-484: [before] is the text before the expire
    comment, reversed, [s] the text after its prefix.  The boolean is false if the loop is left
    by break.  A line feed written behind anchor_rules_copy is a fault. *)
Definition check_one (now : Z) (before s : bytes) (st : ck) : outcome (bool * ck) :=
  let x := exp_text s in
  if negb (is_digits x) then Ok (true, st)
  else
    let e := digits_val 0 x in
    if e <=? now then Ok (true, mkCk (c_copy st) true (c_min st) (less (c_act st)))
    else
      let rest := rev (line_start before) ++ EXPIRE_COMMENT_PREFIX ++ s in
      if (zlen rest <=? 4) || negb (is_prefix ($ "pass") rest) then Ok (false, st)
      else
        let copy := c_copy st ++ ztake (STANDARD_CMD_OUT_BUFSIZE - zlen (c_copy st)) (line_start rest) in
        if zlen copy >=? STANDARD_CMD_OUT_BUFSIZE then Fault
        else Ok (true, mkCk (copy ++ [x0a]) (c_del st)
                            (if negb (c_min st =? 0) && (c_min st <? e) then c_min st else e) (c_act st)).

(** The while loop with strstr, as [expire_loop] of M_fw *)
Fixpoint check_loop (now : Z) (skip : nat) (before s : bytes) (st : ck) : outcome ck :=
  match s with
  | [] => Ok st
  | b :: r =>
      match skip with
      | S k => check_loop now k (b :: before) r st
      | O =>
          if is_prefix EXPIRE_COMMENT_PREFIX s then
            get (go, st) <- check_one now before (skipn 5 s) st;
            if go then check_loop now 4 (b :: before) r st else Ok st
          else check_loop now 0 (b :: before) r st
      end
  end.

(** check_firewall_rules, fw_util_pf.c:334-531.  The copy without a NUL behind it is a fault. *)
Definition check_firewall_rules (now : Z) (k : counters) (w : W) : outcome (counters * W) :=
  if (k_next k =? 0) || (k_next k >? now) then Ok (k, w)
  else
    get (ok, out, w) <- run_extcmd W exec w list_cmd STANDARD_CMD_OUT_BUFSIZE;
    let out := chop_newline out in
    if negb ok then Ok (k, w)
    else match strstr (fun b => b) EXPIRE_COMMENT_PREFIX out with
         | None => Ok (k, w)
         | Some _ =>
             get st <- check_loop now 0 [] out (mkCk [] false 0 (k_active k));
             let done w := Ok (mkCnt (c_act st) (if c_act st <? 1 then 0 else if negb (c_min st =? 0) then c_min st else k_next k), w) in
             if c_del st then
               if zlen (c_copy st) >=? STANDARD_CMD_OUT_BUFSIZE then Fault
               else if (zlen (c_copy st) >? 4) && is_prefix ($ "pass") (c_copy st) then
                 get (ok, w) <- run_extcmd_write w write_cmd (c_copy st);
                 if ok then done w else Ok (mkCnt (c_act st) (k_next k), w)
               else get w <- delete_all_anchor_rules w; done w
             else done w
         end.
End Machine.
