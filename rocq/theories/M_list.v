(** Model of fwknopd --fw-list, --fw-list-all and --fw-flush (server/fw_util_iptables.c, server/fwknopd.c).
    Left out: log messages, and the flags of iptables that are not looked at here. *)
From Verif Require Import Bytes M_util M_packet M_cycle M_fw M_fwinit.
From Coq Require Import Init.Byte List ZArith Bool.
Import ListNotations.
Open Scope Z_scope.

Section Machine.
Variable W : Type.
Variable exec : W -> list bytes -> W * ended * bytes.
Variable cf : fwconf.

(** run_extcmd without a buffer, extcmd.c:119-264: what the program writes goes to the standard
    output of the daemon.  Result: what is written there.  Whether it succeeds is only counted by
    fw_dump_rules, and main does not look at the number (fwknopd.c:151). *)
Definition run_shown (cmd : bytes) (w : W) : outcome (bytes * W) :=
  get args <- strtoargv cmd;
  Ok (match args with
      | None => ([], w)
      | Some argv =>
          match exec w argv with
          | (w', NotStarted, _) => ([], w')
          | (w', _, out) => (out, w')
          end
      end).
(** The commands, fw_util_iptables.c:551-554 and 585-589, and fw_util_iptables.h:63-64 *)
Definition list_command (all : bool) (c : chain) : bytes :=
  fmt (f_cmd cf ++ $ " -t " ++ c_table c ++ (if all then $ " -v -n -L --line-numbers" else $ " -L " ++ c_to c ++ $ " --line-numbers -n")).
(** The loops of fw_dump_rules, fw_util_iptables.c:542-569 and 576-607 *)
Fixpoint dump_chains (all : bool) (cs : list chain) (w : W) : outcome (bytes * W) :=
  match cs with
  | [] => Ok ([], w)
  | c :: r =>
      if zlen (c_target c) =? 0 then dump_chains all r w
      else
        get (out, w) <- run_shown (list_command all c) w;
        get (rest, w) <- dump_chains all r w;
        Ok ((if all then [] else [x0a]) ++ out ++ rest, w)
  end.
(** fw_dump_rules, fw_util_iptables.c:530-611 *)
Definition fw_dump_rules (all : bool) (cs : list chain) (w : W) : outcome (bytes * W) :=
  get (out, w) <- dump_chains all cs w;
  Ok ((if all then $ "Listing all iptables rules in applicable tables..." else $ "Listing rules in fwknopd iptables chains...") ++ [x0a] ++ out, w).

(** The options --fw-list and --fw-list-all (config_init.c:1348-1354), --fw-flush (1355) and --test *)
Record modes := mkModes { o_list : bool; o_list_all : bool; o_flush : bool; o_test : bool }.
(** main, fwknopd.c:149-160, with clean_exit, utils.c:222-243.  [keep]: FLUSH_IPT_AT_EXIT is N.
    None: main goes on; Some: the exit status, what is written, and the machine *)
Definition list_or_flush (o : modes) (keep : bool) (cs : list chain) (w : W) : outcome (option (Z * bytes * W)) :=
  if o_list o || o_list_all o then
    get (out, w) <- fw_dump_rules (o_list_all o) cs w;
    Ok (Some (0, out, w))
  else if o_flush o then
    get w <- (if o_test o then Ok w else fw_cleanup W exec cf keep true cs w);
    Ok (Some (0, $ "Deleting any existing firewall rules..." ++ [x0a], w))
  else Ok None.
End Machine.
