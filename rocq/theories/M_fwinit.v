(** Model of the start and the end of the iptables firewall: fw_initialize and fw_cleanup,
    server/fw_util_iptables.c:250-393, 1093-1147. *)
From Verif Require Import Bytes M_util M_message M_codec M_access M_cycle M_incoming M_packet M_fw.
From Coq Require Import Init.Byte List ZArith Bool.
Import ListNotations.
Open Scope Z_scope.

Definition TMP_COMMENT : bytes := $ "__TMPCOMMENT__".   (* server/fw_util.h:40 *)
Definition DUMMY_IP : bytes := $ "127.0.0.2".           (* server/fw_util.h:41 *)

Section Machine.
Variable W : Type.
Variable exec : W -> list bytes -> W * ended * bytes.
Variable cf : fwconf.

(** IPT_DEL_RULE_ARGS for the first rule, fw_util_iptables.h:55 *)
Definition delete_first (c : chain) (w : W) : outcome W :=
  get (_, w) <- command W exec cf ($ "-t " ++ c_table c ++ $ " -D " ++ c_from c ++ $ " 1") w;
  Ok w.

(** ipt_chk_support, fw_util_iptables.c:250-316: whether -C is supported *)
Definition ipt_chk_support (c : chain) (w : W) : outcome (bool * W) :=
  get (_, w) <- command W exec cf ($ "-t " ++ c_table c ++ $ " -I " ++ c_from c ++ $ " 1 -s " ++ DUMMY_IP ++ $ " -p udp -j " ++ c_target c) w;
  get (ok, err, w) <- run_extcmd W exec w (fmt (f_cmd cf ++ $ " " ++ $ "-t " ++ c_table c ++ $ " -C " ++ c_from c ++ $ " -s " ++ DUMMY_IP ++ $ " -p udp -j " ++ c_target c)) CMD_BUFSIZE;
  get w <- delete_first c w;
  Ok (negb (ok && negb (zlen (chop_newline err) =? 0)), w).

(** comment_match_exists, fw_util_iptables.c:318-393 *)
Definition comment_match_exists (c : chain) (w : W) : outcome (bool * W) :=
  get (_, w) <- command W exec cf ($ "-t " ++ c_table c ++ $ " -I " ++ c_from c ++ $ " 1 -s " ++ DUMMY_IP ++ $ " -m comment --comment " ++ TMP_COMMENT ++ $ " -j " ++ c_target c) w;
  get (_, out, w) <- run_extcmd W exec w (fmt (f_cmd cf ++ $ " " ++ $ "-t " ++ c_table c ++ $ " -L " ++ c_from c ++ $ " --line-numbers -n")) STANDARD_CMD_OUT_BUFSIZE;
  match strstr (fun b => b) TMP_COMMENT (chop_newline out) with
  | None => Ok (false, w)
  | Some _ => get w <- delete_first c w; Ok (true, w)
  end.

(** fw_initialize, fw_util_iptables.c:1093-1137.  [flush]: FLUSH_IPT_AT_INIT, [check]:
    ENABLE_IPT_COMMENT_CHECK.  The chains are those of fw_config_init.  Result: the return value,
    and the state; None: -C is not supported, and what follows is not modelled. *)
Definition fw_initialize (flush check : bool) (cs : list chain) (w : W) : outcome (option bool * W) :=
  get (sup, w) <- ipt_chk_support (chain_at 0 cs) w;
  if negb sup then Ok (None, w)
  else
    get w <- (if flush then delete_all_chains W exec cf cs w else Ok w);
    get (e, w) <- create_fw_chains W exec cf cs w;
    get (found, w) <- (if check then comment_match_exists (chain_at 0 cs) w else Ok (true, w));
    Ok (Some ((e =? 0) && found), w).

(** fw_cleanup, fw_util_iptables.c:1139-1147.  [keep]: FLUSH_IPT_AT_EXIT is N; [fw_flush]: the
    option --fw-flush *)
Definition fw_cleanup (keep fw_flush : bool) (cs : list chain) (w : W) : outcome W :=
  if keep && negb fw_flush then Ok w else delete_all_chains W exec cf cs w.
End Machine.
