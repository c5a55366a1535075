(** Model of server/cmd_cycle.c (command open/close cycles) and of the spa_data struct.
    Not modelled: log messages, what the commands do, the exit status. *)
From Verif Require Import Bytes M_util M_message M_codec M_access.
From Coq Require Import Init.Byte List ZArith Bool.
Import ListNotations.
Open Scope Z_scope.

(** spa_data_t, server/fwknopd_common.h:604-622.  Strings are C strings; the character
    arrays hold them with their terminating NUL.  [d_use] is use_src_ip, a pointer to one of
    the address fields. *)
Record spa_data := mkSpa {
  d_user : bytes; d_time : Z; d_version : bytes; d_type : Z; d_msg : bytes;
  d_src : bytes; d_pkt_src : bytes; d_xff : bytes; d_pkt_dst : bytes; d_remain : bytes;
  d_nat : option bytes; d_auth : option bytes; d_client_timeout : Z; d_timeout : Z; d_use : bytes }.

Definition CMD_CYCLE_BUFSIZE : Z := 256.    (* server/cmd_cycle.h:36 *)
Definition MAX_PROTO_STR_LEN : Z := 4.      (* lib/fko_limits.h:62 *)

(** snprintf(buf, size, ...) of a text *)
Definition snprintf (size : Z) (s : bytes) : bytes := ztake (size - 1) s.

(** The time a cycle lasts, cmd_cycle.c:151-152, 160-161, 229-230, 275-276.  The arithmetic
    is unsigned; cmd_cycle_timer is an int between 1 and RCHK_MAX_CMD_CYCLE_TIMER. *)
Definition cycle_time (timer : Z) (d : spa_data) : Z :=
  if d_client_timeout d =? 0 then timer else d_client_timeout d.

(** The variables of a template, in the order in which they are tested, with their values:
    cmd_cycle.c:86-87 and 101-165.  [pp] is the first element of the port list. *)
Definition cycle_vars (d : spa_data) (timer : Z) (pp : Z * Z) : list (bytes * bytes) :=
  [($ "IP", d_use d); ($ "SRC", d_use d); ($ "PKT_SRC", d_pkt_src d); ($ "DST", d_pkt_dst d);
   ($ "PORT", snprintf (MAX_PORT_STR_LEN + 1) (dec_i (snd pp)));
   ($ "PROTO", snprintf (MAX_PROTO_STR_LEN + 1) (dec_i (fst pp)));
   ($ "TIMEOUT", snprintf 20 (dec_i (d_time d + cycle_time timer d)));
   ($ "CLIENT_TIMEOUT", snprintf 10 (dec_i (cycle_time timer d)))].

(** is_var, cmd_cycle.c:50-60, over the chain of tests: the first variable that [s] starts
    with. *)
Fixpoint find_var (vars : list (bytes * bytes)) (s : bytes) : option (bytes * bytes) :=
  match vars with
  | [] => None
  | (n, v) :: r => if is_prefix n s then Some (n, v) else find_var r s
  end.

(** One store into an array; outside of the array is undefined. *)
Definition put (buf : bytes) (i : Z) (c : byte) : outcome bytes :=
  if (0 <=? i) && (i <? zlen buf) then Ok (ztake i buf ++ c :: zdrop (i + 1) buf) else Fault.

(** The loop of build_cmd, cmd_cycle.c:94-178.  [s] is the template from position [i] on,
    [skip] characters of which belong to a variable already replaced; [buf] is the whole
    array cmd_buf and [idx] is buf_idx. *)
Fixpoint build_loop (vars : list (bytes * bytes)) (s : bytes) (i skip : Z) (buf : bytes) (idx : Z)
  : outcome (option bytes) :=
  match s with
  | [] => Ok (Some buf)
  | c :: r =>
      if i >=? CMD_CYCLE_BUFSIZE then Ok (Some buf)
      else if skip >? 0 then build_loop vars r (i + 1) (skip - 1) buf idx
      else if beq c "$"%byte then
        match find_var vars r with
        | Some (n, v) =>
            build_loop vars r (i + 1) (zlen n) (fst (strlcat buf v CMD_CYCLE_BUFSIZE)) (idx + zlen v)
        | None => build_loop vars r (i + 1) 0 buf idx
        end
      else
        match put buf idx c with
        | Fault => Fault
        | Ok buf' => if idx + 1 =? CMD_CYCLE_BUFSIZE then Ok None
                     else build_loop vars r (i + 1) 0 buf' (idx + 1)
        end
  end.

(** build_cmd, cmd_cycle.c:62-179: the command in cmd_buf afterwards; None = return 0 *)
Definition build_cmd (d : spa_data) (tpl : bytes) (timer : Z) : outcome (option bytes) :=
  match expand_acc_port_list (d_remain d) with
  | None | Some [] => Ok None
  | Some (pp :: _) =>
      match build_loop (cycle_vars d timer pp) tpl 0 0 (repeat x00 256) 0 with
      | Fault => Fault
      | Ok None => Ok None
      | Ok (Some buf) => Ok (Some (cstr buf))
      end
  end.

(** cmd_cycle_list_t, server/fwknopd_common.h:459-466 *)
Record cycle := mkCycle { cy_src : bytes; cy_close : bytes; cy_expire : Z; cy_stanza : Z }.

(** The part of a stanza cmd_cycle.c uses; cc_close is only used if cc_do_close is set. *)
Record cycle_conf := mkCC { cc_open : bytes; cc_close : bytes; cc_do_close : bool; cc_timer : Z }.

(** cmd_cycle_open with cmd_open and add_cmd_close, cmd_cycle.c:181-310.  The result is the
    return value, the commands run and the list of cycles. *)
Definition cmd_cycle_open (cc : cycle_conf) (d : spa_data) (num now : Z) (l : list cycle)
  : outcome (bool * list bytes * list cycle) :=
  match build_cmd d (cc_open cc) (cc_timer cc) with
  | Fault => Fault
  | Ok None => Ok (false, [], l)
  | Ok (Some cmd) =>
      if cc_do_close cc then
        match build_cmd d (cc_close cc) (cc_timer cc) with
        | Fault => Fault
        | Ok None => Ok (false, [cmd], l)
        | Ok (Some cl) =>
            (* cmd_close_len = strnlen(cmd_buf, CMD_CYCLE_BUFSIZE-1)+1 *)
            let n := strnlen cl (CMD_CYCLE_BUFSIZE - 1) + 1 in
            Ok (true, [cmd], l ++ [mkCycle (ztake (MAX_IPV4_STR_LEN - 1) (d_use d)) (ztake (n - 1) cl)
                                           (now + cycle_time (cc_timer cc) d) num])
        end
      else Ok (true, [cmd], l)
  end.

(** The for loop of cmd_cycle_close, cmd_cycle.c:348-375: from the element at position [i] on,
    find the first one that is due.  The result is its position, the element and the value of
    prev, a pointer to the element at some position. *)
Fixpoint find_due (now : Z) (l : list cycle) (i : nat) (prev : option nat)
  : option (nat * cycle) * option nat :=
  match l with
  | [] => (None, prev)
  | c :: r => if cy_expire c <=? now then (Some (i, c), prev) else find_due now r (S i) (Some i)
  end.

(** The while loop of cmd_cycle_close, cmd_cycle.c:341-376; prev keeps its value from one
    round to the next.  Unlinking behind the element itself would leave a dangling pointer. *)
Fixpoint close_loop (fuel : nat) (now : Z) (l : list cycle) (prev : option nat)
  : outcome (list cycle * list cycle) :=
  match fuel with
  | O => Ok ([], l)
  | S f =>
      match find_due now l 0 prev with
      | (None, _) => Ok ([], l)
      | (Some (i, c), prev') =>
          let rest := match prev' with
                      | None => Ok (skipn (S i) l)
                      | Some p => if Nat.ltb p i then Ok (firstn (S p) l ++ skipn (S i) l) else Fault
                      end in
          match rest with
          | Fault => Fault
          | Ok l' => match close_loop f now l' prev' with
                     | Fault => Fault
                     | Ok (ran, l'') => Ok (c :: ran, l'')
                     end
          end
      end
  end.

(** cmd_cycle_close, cmd_cycle.c:326-380: the cycles whose close command is run, in order,
    and the list afterwards *)
Definition cmd_cycle_close (now : Z) (l : list cycle) : outcome (list cycle * list cycle) :=
  close_loop (S (List.length l)) now l None.
