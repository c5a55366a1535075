(** Model of server/extcmd.c (running other programs), of the SIGCHLD case of
    server/sig_handler.c, and of what the operating system does with the identities of a process
    and with its ended children.  M_fw.v has the output of a command that is copied to a buffer;
    here is the rest: who the program runs as, which status is reported, and the search for a
    text in the output.  Not modelled: the build without execvp, the file descriptors. *)
From Verif Require Import Bytes M_util M_message M_codec M_cipher M_ctx M_access M_replay M_cycle M_incoming M_packet M_fw.
From Coq Require Import Init.Byte List ZArith Bool.
Import ListNotations.
Open Scope Z_scope.

(** The result codes used, server/extcmd.h:46-65 *)
Definition EXTCMD_CHDIR_ERROR : Z := -8.
Definition EXTCMD_ARGV_ERROR : Z := -6.
Definition EXTCMD_SETGID_ERROR : Z := -5.
Definition EXTCMD_SETUID_ERROR : Z := -4.
Definition EXTCMD_FORK_ERROR : Z := -1.
Definition EXTCMD_SUCCESS_ALL_OUTPUT : Z := 0.
Definition EXTCMD_EXECUTION_ERROR : Z := 16.

(** The identities of a process: real, effective and saved user and group, and the
    supplementary groups *)
Record creds := mkCreds { ruid : Z; euid : Z; suid : Z; rgid : Z; egid : Z; sgid : Z; groups : list Z }.

(** What may go wrong in the child: chdir, the two calls that change the identity (setuid fails
    also for root when the new user has too many processes), execvp *)
Record box := mkBox { x_chdir : creds -> bool; x_setgid : bool; x_setuid : bool; x_exec : creds -> list bytes -> bool }.

Definition NO_ID : Z := 4294967295.                 (* (uid_t)-1, refused by setuid and setgid *)
(** setgid(2): the superuser changes all three, others only the effective one, to the real or
    the saved one.  Being the superuser is having the effective user 0; capabilities are not
    modelled. *)
Definition setgid (y : box) (g : Z) (c : creds) : option creds :=
  if negb (x_setgid y) || (g =? NO_ID) then None
  else if euid c =? 0 then Some (mkCreds (ruid c) (euid c) (suid c) g g g (groups c))
  else if (g =? rgid c) || (g =? sgid c) then Some (mkCreds (ruid c) (euid c) (suid c) (rgid c) g (sgid c) (groups c))
  else None.
(** setuid(2) *)
Definition setuid (y : box) (u : Z) (c : creds) : option creds :=
  if negb (x_setuid y) || (u =? NO_ID) then None
  else if euid c =? 0 then Some (mkCreds u u u (rgid c) (egid c) (sgid c) (groups c))
  else if (u =? ruid c) || (u =? suid c) then Some (mkCreds (ruid c) u (suid c) (rgid c) (egid c) (sgid c) (groups c))
  else None.

(** What becomes of the child process: it ends with a code, it becomes the program, or it goes on
    in the code of the daemon after the call of run_extcmd *)
Inductive child := Gone (code : Z) | Runs (c : creds) (argv : list bytes) | GoesOn (c : creds).

(** The child of _run_extcmd, server/extcmd.c:180-217 *)
Definition extcmd_child (y : box) (c : creds) (uid gid : Z) (argv : list bytes) : child :=
  if negb (x_chdir y c) then Gone EXTCMD_CHDIR_ERROR
  else match (if 0 <? gid then setgid y gid c else Some c) with
       | None => Gone EXTCMD_SETGID_ERROR
       | Some c =>
           match (if 0 <? uid then setuid y uid c else Some c) with
           | None => Gone EXTCMD_SETUID_ERROR
           | Some c => if x_exec y c argv then Runs c argv else Gone (-1)
           end
       end.

(** The child of _run_extcmd_write, extcmd.c:637-647: nothing follows the call of execvp *)
Definition write_child (y : box) (c : creds) (argv : list bytes) : child :=
  if negb (x_chdir y c) then Gone EXTCMD_CHDIR_ERROR
  else if x_exec y c argv then Runs c argv else GoesOn c.

(** The child made for an effect of a packet: run_extcmd_as for a command with a user,
    run_extcmd (as ROOT_UID, ROOT_GID: extcmd.c:693-701) otherwise; incoming_spa.c:508-530,
    cmd_cycle.c:195 *)
Definition effect_child (y : box) (c : creds) (e : effect) : outcome (option child) :=
  match e with
  | Grant _ _ => Ok None
  | Command _ cmd who =>
      get argv <- strtoargv cmd;
      Ok (match argv with
          | None => None
          | Some argv => Some (match who with
                               | Some (u, g) => extcmd_child y c u g argv
                               | None => extcmd_child y c 0 0 argv
                               end)
          end)
  | CycleOpen _ cmd =>
      get argv <- strtoargv cmd;
      Ok (match argv with None => None | Some argv => Some (extcmd_child y c 0 0 argv) end)
  end.

(** exit(code) and the death by a signal, as waitpid tells them *)
Definition exited (code : Z) : Z := (code mod 256) * 256.
Definition killed (sig : Z) : Z := sig.
Definition WIFEXITED (st : Z) : bool := st mod 128 =? 0.
Definition WEXITSTATUS (st : Z) : Z := (st / 256) mod 256.

(** The children of the daemon: the process id, and the status of those that have ended and are
    not yet waited for *)
Definition table := list (Z * option Z).
Inductive event :=
| End (pid st : Z)                                  (* a child ends *)
| Handler (pid : Z).                                (* the SIGCHLD handler runs, and its waitpid(-1, NULL, WNOHANG) finds this child *)
(** sig_handler, server/sig_handler.c:76-82, in so far as it takes a status nobody else can
    have then *)
Definition happen (t : table) (e : event) : table :=
  match e with
  | End pid st => map (fun x => if fst x =? pid then (pid, match snd x with None => Some st | o => o end) else x) t
  | Handler pid => filter (fun x => negb ((fst x =? pid) && match snd x with Some _ => true | None => false end)) t
  end.
(** waitpid(pid, &pid_status, 0) after the events [l], server/extcmd.c:263; pid_status was 0
    before (line 144), and stays so when there is no such child any more.  None: it still
    waits. *)
Definition wait_status (pid : Z) (t : table) (l : list event) : option Z :=
  match find (fun x => fst x =? pid) (fold_left happen l t) with
  | None => Some 0
  | Some (_, o) => o
  end.

(** The return value of _run_extcmd without a search, extcmd.c:352-364 *)
Definition run_result (st : Z) : Z := if WIFEXITED st then EXTCMD_SUCCESS_ALL_OUTPUT else EXTCMD_EXECUTION_ERROR.
(** What process_cmd_msg reports of a command, incoming_spa.c:532-544: the status in the log
    and whether the result becomes SPA_MSG_COMMAND_ERROR *)
Definition reported (st : Z) : Z * bool :=
  if WIFEXITED st then (WEXITSTATUS st, negb (WEXITSTATUS st =? 0)) else (st, true).

(** IS_EMPTY_LINE, server/utils.h:52-54 *)
Definition empty_line (s : bytes) : bool :=
  match s with
  | [] => true
  | c :: _ => beq c "#"%byte || beq c x0a || beq c x0d || beq c ";"%byte || beq c x00
  end.
(** copy_or_search in search mode, extcmd.c:94-108 *)
Definition found (sub line : bytes) : bool :=
  negb (empty_line line) && (match strstr (fun b => b) sub (cstr line) with Some _ => true | None => false end).
(** The loop of _run_extcmd with a text to search for, extcmd.c:227-240 and copy_or_search,
    lines 74-109: [s] is what the program still writes, [cur] the part of the line read so far,
    [n] the lines counted, [last] what so_buf holds (search_extcmd_getline, WANT_STDOUT_GETLINE). The
    result is found_str with line_ctr, and so_buf. *)
Fixpoint search_lines (sub : bytes) (size : Z) (s cur : bytes) (n : Z) (last : bytes) : option Z * bytes :=
  match s with
  | [] => match cur with
          | [] => (None, last)
          | _ => (if found sub cur then Some (n + 1) else None, ztake (size - 1) (cstr cur))
          end
  | c :: r =>
      let cur := cur ++ [c] in
      if beq c x0a || (zlen cur =? IO_READ_BUF_LEN - 1) then
        let last := ztake (size - 1) (cstr cur) in
        if found sub cur then (Some (n + 1), last) else search_lines sub size r [] (n + 1) last
      else search_lines sub size r cur n last
  end.
(** search_extcmd and search_extcmd_getline: _run_extcmd, extcmd.c:342-351: the number of the line,
    or 0; and the buffer *)
Definition search_output (sub : bytes) (size : Z) (out : bytes) : Z * bytes :=
  let '(r, buf) := search_lines sub size out [] 0 [] in
  (match r with Some n => n | None => 0 end, truncate_partial_line buf).
