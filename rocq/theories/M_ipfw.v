(** Model of server/fw_util_ipfw.c, the back end for the firewall ipfw (as built for other
    systems than macOS), with the commands of server/extcmd.c (built with execvp) it uses, and of
    the part of the packet loop that calls ipfw_purge_expired_rules.
    The program ipfw is a parameter [exec] on some state [W] of the machine.
    Not modelled: log messages, fw_dump_rules, failing memory allocation, and the life of the
    array rule_map, which is taken to exist whenever the functions that use it are called. *)
From Verif Require Import Bytes M_util M_message M_codec M_access M_cycle M_incoming M_packet M_fw M_extcmd M_pf.
From Coq Require Import Init.Byte List ZArith Bool.
Import ListNotations.
Open Scope Z_scope.

(** server/fwknopd_common.h:205-208 *)
Definition RCHK_MAX_IPFW_MAX_RULES : Z := 131071.
Definition RCHK_MAX_IPFW_SET_NUM : Z := 63.
Definition RCHK_MAX_IPFW_PURGE_INTERVAL : Z := 131071.
(** server/fw_util_ipfw.h:33-38 *)
Definition RULE_FREE : Z := 0.
Definition RULE_ACTIVE : Z := 1.
Definition RULE_EXPIRED : Z := 2.
Definition RULE_TMP_MARKED : Z := 3.
Definition IPFW_ANY_IP : bytes := $ "me".        (* server/fw_util_ipfw.h:49 *)

(** struct fw_config of the ipfw build, server/fwknopd_common.h:566-579: what does not change,
    with the three settings that are looked at again and again; and what does *)
Record ipfwconf := mkIf {
  i_cmd : bytes; i_start : Z; i_max : Z; i_active : Z; i_expire : Z; i_interval : Z; i_use_dst : bool;
  i_flush_init : bytes; i_flush_exit : bytes; i_check_state : bytes }.
Record books := mkBooks { b_active : Z; b_total : Z; b_next : Z; b_purged : Z; b_map : list Z }.

(** strncasecmp(s, "Y", 1) == 0, and with "N" *)
Definition says (c : byte) (s : bytes) : bool := match s with x :: _ => beq (tolower x) c | [] => false end.

(** fw_config_init, fw_util_ipfw.c:180-247, of FIREWALL_EXE, IPFW_START_RULE_NUM,
    IPFW_MAX_RULES, IPFW_ACTIVE_SET_NUM, IPFW_EXPIRE_SET_NUM, IPFW_EXPIRE_PURGE_INTERVAL,
    ENABLE_DESTINATION_RULE and the three other settings: None if it returns 0 *)
Definition fw_config_init (exe start max act exp interval dst finit fexit chk : bytes) : option ipfwconf :=
  match strtol_wrapper start 0 RCHK_MAX_IPFW_MAX_RULES, strtol_wrapper max 0 RCHK_MAX_IPFW_MAX_RULES,
        strtol_wrapper act 0 RCHK_MAX_IPFW_SET_NUM, strtol_wrapper exp 0 RCHK_MAX_IPFW_SET_NUM,
        strtol_wrapper interval 0 RCHK_MAX_IPFW_PURGE_INTERVAL with
  | (s, STRTOL_OK), (m, STRTOL_OK), (a, STRTOL_OK), (e, STRTOL_OK), (i, STRTOL_OK) =>
      Some (mkIf (ztake (MAX_PATH_LEN - 1) exe) (u16 s) (u16 m) (u16 a) (u16 e) (u16 i) (says "y"%byte dst) finit fexit chk)
  | _, _, _, _, _ => None
  end.

(** rule_map[i] = v, and a fault if [i] is not an index *)
Fixpoint put_nth (n : nat) (v : Z) (l : list Z) : outcome (list Z) :=
  match l, n with
  | [], _ => Fault
  | _ :: r, O => Ok (v :: r)
  | x :: r, S k => get r' <- put_nth k v r; Ok (x :: r')
  end.
Definition put_map (i v : Z) (l : list Z) : outcome (list Z) :=
  if i <? 0 then Fault else put_nth (Z.to_nat i) v l.

(** The loop of get_next_rule_num, fw_util_ipfw.c:44-55, from the index [i] on *)
Fixpoint first_free (start i : Z) (l : list Z) : Z :=
  match l with
  | [] => 0
  | x :: r => if x =? RULE_FREE then u16 (start + i) else first_free start (i + 1) r
  end.

Section Machine.
Variable W : Type.
Variable exec : W -> list bytes -> W * ended * bytes.
Variable cf : ipfwconf.

(** zero_cmd_buffers, snprintf into cmd_buf and run_extcmd, with the arguments of
    server/fw_util_ipfw.h:42-63 *)
Definition ask_ipfw (args : bytes) (size : Z) (w : W) : outcome (bool * bytes * W) :=
  run_extcmd W exec w (fmt (i_cmd cf ++ $ " " ++ args)) size.
Definition add_args (num proto : Z) (src dst : bytes) (port e : Z) : bytes :=
  $ "add " ++ dec num ++ $ " set " ++ dec (i_active cf) ++ $ " pass " ++ dec (u32 proto) ++ $ " from " ++ src ++ $ " to " ++ dst ++
  $ " dst-port " ++ dec (u32 port) ++ $ " setup keep-state // " ++ EXPIRE_COMMENT_PREFIX ++ dec e.
Definition check_state_args : bytes := $ "add " ++ dec (i_start cf) ++ $ " set " ++ dec (i_active cf) ++ $ " check-state".
Definition move_args (num : Z) : bytes := $ "set move rule " ++ dec num ++ $ " to " ++ dec (i_expire cf).
Definition disable_args : bytes := $ "set disable " ++ dec (i_expire cf).
Definition flush_args : bytes := $ "delete set " ++ dec (i_active cf).
Definition delete_args (num : Z) : bytes := $ "set " ++ dec (i_expire cf) ++ $ " delete " ++ dec num.
Definition list_args : bytes := $ "set " ++ dec (i_active cf) ++ $ " list".
Definition list_exp_args : bytes := $ "-S set " ++ dec (i_expire cf) ++ $ " list".
Definition list_dyn_args : bytes := $ "-d set " ++ dec (i_expire cf) ++ $ " list".

(** ipfw_set_exists, fw_util_ipfw.c:67-96, of the active set *)
Definition set_exists (w : W) : outcome (bool * W) :=
  get (ok, out, w) <- ask_ipfw list_args STANDARD_CMD_OUT_BUFSIZE w;
  Ok (ok && negb (zlen out =? 0), w).

(** fw_cleanup, fw_util_ipfw.c:408-472: whether it returns 0 *)
Definition fw_cleanup (w : W) : outcome (bool * W) :=
  if says "n"%byte (i_flush_exit cf) then Ok (true, w)
  else if i_active cf >? 0 then
    get (ex, w) <- set_exists w;
    if ex then get (ok, _, w) <- ask_ipfw flush_args CMD_BUFSIZE w; Ok (ok, w) else Ok (true, w)
  else Ok (true, w).

Definition DISABLED : bytes := $ "# DISABLED ".
(** The while loop over the listing of the expire set, fw_util_ipfw.c:371-402: [skip]
    characters of [s] belong to a text already found *)
Fixpoint read_expired (skip : nat) (s : bytes) (map : list Z) (total : Z) : outcome (list Z * Z) :=
  match s with
  | [] => Ok (map, total)
  | _ :: r =>
      match skip with
      | S k => read_expired k r map total
      | O =>
          if is_prefix DISABLED s then
            let t := skipn 11 s in
            match t with
            | c :: _ =>
                if isdigit c then
                  match strtol_wrapper t 0 (-1) with
                  | (n, STRTOL_OK) =>
                      let n := u16 n in
                      if (i_start cf <=? n) && (n <? i_start cf + i_max cf) then
                        get map <- put_map (n - i_start cf) RULE_EXPIRED map;
                        read_expired 10 r map (u16 (total + 1))
                      else read_expired 10 r map total
                  | _ => read_expired 10 r map total
                  end
                else read_expired 10 r map total
            | [] => Ok (map, total)
            end
          else read_expired 0 r map total
      end
  end.

(** fw_initialize, fw_util_ipfw.c:253-406, after fw_config_init: None if it returns 0 *)
Definition fw_initialize (w : W) : outcome (option books * W) :=
  get (ok, w) <- (if says "y"%byte (i_flush_init cf) then fw_cleanup w else Ok (true, w));
  if negb ok then Ok (None, w)
  else
    let map := repeat RULE_FREE (Z.to_nat (i_max cf)) in
    get (map, w) <- (if says "y"%byte (i_check_state cf) then
                       get (ok, _, w) <- ask_ipfw check_state_args CMD_BUFSIZE w;
                       if ok then get map <- put_map 0 RULE_ACTIVE map; Ok (map, w) else Ok (map, w)
                     else Ok (map, w));
    get w <- (if (i_expire cf >? 0) && says "y"%byte (i_flush_init cf) then
                get (_, _, w) <- ask_ipfw disable_args CMD_BUFSIZE w; Ok w
              else Ok w);
    get (ok, out, w) <- ask_ipfw list_exp_args STANDARD_CMD_OUT_BUFSIZE w;
    if negb ok then Ok (None, w)
    else get (map, total) <- read_expired 0 out map 0;
         Ok (Some (mkBooks 0 total 0 0 map), w).

(** The while loop of process_spa_request, fw_util_ipfw.c:524-565; [res] is whether the last
    command succeeded *)
Fixpoint add_rules (num : Z) (src dst : bytes) (e now : Z) (pl : list (Z * Z)) (res : bool) (k : books) (w : W) : outcome (bool * books * W) :=
  match pl with
  | [] => Ok (res, k, w)
  | (proto, port) :: r =>
      get (ok, _, w) <- ask_ipfw (add_args num proto src dst port e) CMD_BUFSIZE w;
      if ok then
        get map <- put_map (num - i_start cf) RULE_ACTIVE (b_map k);
        add_rules num src dst e now r true
          (mkBooks (u16 (b_active k + 1)) (u16 (b_total k + 1))
                   (if (b_next k <? now) || (e <? b_next k) then e else b_next k) (b_purged k) map) w
      else add_rules num src dst e now r false k w
  end.

(** process_spa_request, fw_util_ipfw.c:476-589: Some b if it returns the result of a command,
    which is a success if [b]; None if it returns -1 *)
Definition process_spa_request (d : spa_data) (now : Z) (k : books) (w : W) : outcome (option bool * books * W) :=
  let pl := entries_read (d_remain d) [] [] in
  if (d_type d =? FKO_ACCESS_MSG) || (d_type d =? FKO_CLIENT_TIMEOUT_ACCESS_MSG) then
    let num := first_free (i_start cf) 0 (b_map k) in
    if num =? 0 then Ok (None, k, w)
    else
      get (res, k, w) <- add_rules num (d_use d) (if i_use_dst cf then d_pkt_dst d else IPFW_ANY_IP)
                                   (u32 (now + d_timeout d)) now pl true k w;
      Ok (Some res, k, w)
  else Ok (None, k, w).

(** exp_str, fw_util_ipfw.c:659-660 *)
Definition exp_text (s : bytes) : bytes := chop_spaces (ztake 11 s).

(** What the loop of check_firewall_rules comes to: the end of the list, a break, or the moving
    of a rule (after which cmd_out is empty and the loop ends); each with min_exp *)
Inductive seen := Through (min : Z) | Broken (min : Z) | Due (num min : Z).
(** One round, fw_util_ipfw.c:649-751: [before] is the text before the expire comment,
    reversed, [s] the text after its prefix; None if the loop goes on.  More than five
    characters copied to rule_num_str are a fault. *)
Definition check_one (now : Z) (before s : bytes) (min : Z) : outcome (option seen * Z) :=
  let x := exp_text s in
  if negb (is_digits x) then Ok (None, min)
  else
    let e := digits_val 0 x in
    if e <=? now then
      let line := rev (line_start before) ++ EXPIRE_COMMENT_PREFIX ++ s in
      match index_of " "%byte line with
      | None => Ok (Some (Broken min), min)
      | Some j =>
          if Z.of_nat j + 1 >? 6 then Fault
          else match strtol_wrapper (firstn j line) 0 (-1) with
               | (n, STRTOL_OK) => Ok (Some (Due (u16 n) min), min)
               | _ => Ok (None, min)
               end
      end
    else Ok (None, if min <? e then min else e).

(** The while loop with strstr *)
Fixpoint check_loop (now : Z) (skip : nat) (before s : bytes) (min : Z) : outcome seen :=
  match s with
  | [] => Ok (Through min)
  | b :: r =>
      match skip with
      | S k => check_loop now k (b :: before) r min
      | O =>
          if is_prefix EXPIRE_COMMENT_PREFIX s then
            get (o, min) <- check_one now before (skipn 5 s) min;
            match o with
            | Some x => Ok x
            | None => check_loop now 4 (b :: before) r min
            end
          else check_loop now 0 (b :: before) r min
      end
  end.

(** check_firewall_rules, fw_util_ipfw.c:594-759 *)
Definition check_firewall_rules (now : Z) (k : books) (w : W) : outcome (books * W) :=
  let act := if b_active k >? i_max cf then 0 else b_active k in
  let keep act nxt map w := Ok (mkBooks act (b_total k) nxt (b_purged k) map, w) in
  let done act min map w := keep act (if act <? 1 then 0 else if negb (min =? 0) then min else b_next k) map w in
  if (act =? 0) || (b_next k >? now) then keep act (b_next k) (b_map k) w
  else
    get (ok, out, w) <- ask_ipfw list_args STANDARD_CMD_OUT_BUFSIZE w;
    let out := chop_newline out in
    if negb ok then keep act (b_next k) (b_map k) w
    else match strstr (fun b => b) EXPIRE_COMMENT_PREFIX out with
         | None => keep (less act) (b_next k) (b_map k) w
         | Some _ =>
             get o <- check_loop now 0 [] out 0;
             match o with
             | Through min => done act min (b_map k) w
             | Broken min => done (less act) min (b_map k) w
             | Due num min =>
                 get (ok, _, w) <- ask_ipfw (move_args num) CMD_BUFSIZE w;
                 if ok then get map <- put_map (num - i_start cf) RULE_EXPIRED (b_map k); done (less act) min map w
                 else done act min (b_map k) w
             end
         end.

(** The loop over the dynamic rules, fw_util_ipfw.c:823-852: [seek] while it looks for a digit,
    otherwise it looks for the end of the line *)
Fixpoint mark_dynamic (seek : bool) (s : bytes) (map : list Z) : outcome (list Z) :=
  match s with
  | [] => Ok map
  | c :: r =>
      if seek then
        if isdigit c then
          match strtol_wrapper s 0 (-1) with
          | (n, STRTOL_OK) =>
              let n := u16 n in
              if (i_start cf <=? n) && (n <? i_start cf + i_max cf) then
                get map <- put_map (n - i_start cf) RULE_TMP_MARKED map;
                mark_dynamic false r map
              else mark_dynamic false r map
          | _ => mark_dynamic false r map
          end
        else mark_dynamic true r map
      else mark_dynamic (beq c x0a) r map
  end.

(** The loop over the rule map, fw_util_ipfw.c:857-905, from the index [i] on: [l] is the rest
    of the map, [map] all of it *)
Fixpoint purge_map (i : Z) (l map : list Z) (total : Z) (w : W) : outcome (list Z * Z * W) :=
  match l with
  | [] => Ok (map, total, w)
  | x :: r =>
      if x =? RULE_TMP_MARKED then
        get map <- put_map i RULE_EXPIRED map; purge_map (i + 1) r map total w
      else if negb (x =? RULE_EXPIRED) then purge_map (i + 1) r map total w
      else
        let num := u16 (i_start cf + i) in
        get (ok, _, w) <- ask_ipfw (delete_args num) STANDARD_CMD_OUT_BUFSIZE w;
        if ok then get map <- put_map (num - i_start cf) RULE_FREE map; purge_map (i + 1) r map (u16 (total - 1)) w
        else purge_map (i + 1) r map total w
  end.

(** ipfw_purge_expired_rules, fw_util_ipfw.c:764-906 *)
Definition ipfw_purge_expired_rules (k : books) (w : W) : outcome (books * W) :=
  get (ok, out, w) <- ask_ipfw list_dyn_args STANDARD_CMD_OUT_BUFSIZE w;
  if negb ok then Ok (k, w)
  else
    let rest map :=
      get (map, total, w) <- purge_map 0 map map (b_total k) w;
      Ok (mkBooks (b_active k) total (b_next k) (b_purged k) map, w) in
    if zlen out =? 0 then rest (b_map k)
    else match strstr tolower ($ "## dynamic rules") out with
         | None => Ok (k, w)
         | Some t =>
             match index_of x0a t with
             | None => Ok (k, w)
             | Some j => get map <- mark_dynamic true (skipn (S j) t) (b_map k); rest map
             end
         end.

(** The part of pcap_capture, server/pcap_capture.c:317-330, that purges *)
Definition purge_round (now : Z) (k : books) (w : W) : outcome (books * W) :=
  if (b_total k >? 0) && (b_purged k <? now - i_interval cf) then
    get (k, w) <- ipfw_purge_expired_rules k w;
    Ok (mkBooks (b_active k) (b_total k) (b_next k) now (b_map k), w)
  else Ok (k, w).
End Machine.
