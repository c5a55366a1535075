(** Model of the reading of access.conf: server/access.c, the functions around
    parse_access_file.  Build with iptables.  Not modelled: log messages, allocation failure. *)
From Verif Require Import Bytes M_base64 M_util M_message M_codec M_access M_replay M_cycle M_incoming M_conf.
From Coq Require Import Init.Byte List ZArith Bool.
Import ListNotations.
Open Scope Z_scope.

(** ** A stanza: acc_stanza_t, server/fwknopd_common.h:389-455 *)
(** Its strings (None is NULL); for [s_key] and [s_hmac_key] the bytes in use *)
Inductive sfield :=
  | s_source | s_destination | s_open_ports | s_restrict_ports | s_key | s_key_base64 | s_hmac_key | s_hmac_key_base64
  | s_sudo_user | s_sudo_group | s_user | s_group | s_cycle_open | s_cycle_close | s_require_username
  | s_gpg_home_dir | s_gpg_exe | s_gpg_decrypt_id | s_gpg_decrypt_pw | s_gpg_remote_id | s_gpg_remote_fpr
  | s_nat_ip | s_snat_ip.
(** Its numbers and flags *)
Inductive ifield :=
  | i_key_len | i_hmac_key_len | i_hmac_type | i_use_rijndael | i_fw_timeout | i_max_timeout | i_cmd | i_sudo
  | i_sudo_uid | i_sudo_gid | i_do_close | i_timer | i_uid | i_gid | i_require_source | i_require_sig | i_disable_sig
  | i_ignore_sig_error | i_use_gpg | i_allow_no_pw | i_expire | i_mode
  | i_nat | i_nat_port | i_forward_all | i_disable_dnat | i_snat | i_masquerade.
Scheme Equality for sfield.
Scheme Equality for ifield.
(** The fields, and the lists they are expanded into *)
Record acc := mkAcc {
  strs : sfield -> option bytes; ints : ifield -> Z;
  l_source : list net; l_dest : list net; l_open : list (Z * Z); l_restrict : list (Z * Z);
  l_ids : list bytes; l_fprs : list bytes }.
(** calloc, access.c:1132 *)
Definition new_acc : acc := mkAcc (fun _ => None) (fun _ => 0) [] [] [] [] [] [].
Definition set_s (f : sfield) (v : option bytes) (a : acc) : acc :=
  mkAcc (fun g => if sfield_beq g f then v else strs a g) (ints a) (l_source a) (l_dest a) (l_open a) (l_restrict a) (l_ids a) (l_fprs a).
Definition set_i (f : ifield) (v : Z) (a : acc) : acc :=
  mkAcc (strs a) (fun g => if ifield_beq g f then v else ints a g) (l_source a) (l_dest a) (l_open a) (l_restrict a) (l_ids a) (l_fprs a).

(** ** What happens *)
(** Done: the call returns; Failed: it returns EXIT_FAILURE; Exited: clean_exit;
    Crashed: undefined behaviour; Endless: more nested files than the fuel of the model. *)
Inductive res (A : Type) := Done (a : A) | Failed | Exited | Crashed | Endless.
Arguments Done {A}. Arguments Failed {A}. Arguments Exited {A}. Arguments Crashed {A}. Arguments Endless {A}.
Definition rbind {A B} (x : res A) (f : A -> res B) : res B :=
  match x with Done a => f a | Failed => Failed | Exited => Exited | Crashed => Crashed | Endless => Endless end.
Notation "'let*' x := a 'in' b" := (rbind a (fun x => b)) (at level 200, x pattern, a at level 100, b at level 200).

(** The system: the contents of files (None: cannot be opened or is no regular file); the names
    in a directory, in the order of readdir; getpwnam (user and group id); is_valid_dir; mktime
    of month, day and year; the settings ENABLE_IPT_FORWARDING, ENABLE_IPT_LOCAL_NAT and
    GPG_HOME_DIR of fwknopd.conf. *)
Record system := mkSys {
  y_file : bytes -> option bytes; y_dir : bytes -> option (list bytes); y_pw : bytes -> option (Z * Z);
  y_is_dir : bytes -> bool; y_mktime : Z -> Z -> Z -> Z;
  y_forwarding : bytes; y_local_nat : bytes; y_gpg_home : bytes }.

(** ** The values *)
(** add_acc_bool, access.c:192-195 *)
Definition acc_bool (v : bytes) : Z := if yes v then 1 else 0.
(** strcasecmp(val, "__CHANGEME__") == 0 *)
Definition changeme (v : bytes) : bool := strcaseeq v ($ "__CHANGEME__").
(** hmac_digest_strtoint, common/fko_util.c:311-330 *)
Definition hmac_digest_strtoint (v : bytes) : Z :=
  if strcaseeq v ($ "md5") then 1 else if strcaseeq v ($ "sha1") then 2 else if strcaseeq v ($ "sha256") then 3
  else if strcaseeq v ($ "sha384") then 4 else if strcaseeq v ($ "sha512") then 5
  else if strcaseeq v ($ "sha3_256") then 6 else if strcaseeq v ($ "sha3_512") then 7 else -1.
(** enc_mode_strtoint, common/fko_util.c:70-80 and 443-465 *)
Definition enc_mode_strtoint (v : bytes) : Z :=
  if strcaseeq v ($ "CBC") then 2 else if strcaseeq v ($ "ECB") then 1 else if strcaseeq v ($ "CFB") then 3
  else if strcaseeq v ($ "OFB") then 5 else if strcaseeq v ($ "CTR") then 6
  else if strcaseeq v ($ "Asymmetric") then 7 else if strcaseeq v ($ "legacy") then 8 else -1.
(** sscanf %Nd and %Nu: the sign counts as a character *)
Fixpoint take_digits_n (n : nat) (s : bytes) : bytes * bytes :=
  match n, s with
  | S m, c :: r => if isdigit c then let '(d, t) := take_digits_n m r in (c :: d, t) else ([], s)
  | _, _ => ([], s)
  end.
Definition scan_num_n (n : nat) (s : bytes) : option (Z * bytes) :=
  let s1 := skip_space s in
  let '(neg, m, s2) := match s1 with
                       | c :: r => if beq c "-"%byte then (true, pred n, r)
                                   else if beq c "+"%byte then (false, pred n, r) else (false, n, s1)
                       | [] => (false, n, [])
                       end in
  match take_digits_n m s2 with
  | ([], _) => None
  | (d, t) => let v := digits_val 0 d in Some (if neg : bool then - v else v, t)
  end.
Definition scan_char (c : byte) (s : bytes) : option bytes :=
  match s with d :: r => if beq d c then Some r else None | [] => None end.
(** sscanf(val, "%2d/%2d/%4d"), access.c:206 *)
Definition scan_date (v : bytes) : option (Z * Z * Z) :=
  do (m, r) <- scan_num_n 2 v; do r <- scan_char "/"%byte r;
  do (d, r) <- scan_num_n 2 r; do r <- scan_char "/"%byte r;
  do (y, _) <- scan_num_n 4 r; Some (m, d, y).
(** add_acc_expire_time, access.c:199-233 *)
Definition acc_expire_time (y : system) (v : bytes) : option Z :=
  do (mdy, yr) <- scan_date v;
  let '(m, d) := mdy in
  Some (y_mktime y (if 0 <? m then m - 1 else m) d (if 1900 <? yr then yr - 1900 else if yr <? 100 then yr + 100 else yr)).
(** strtoul(val, &endptr, 10), stored as a time_t; None: ERANGE *)
Definition strtoul10 (s : bytes) : option Z :=
  let s1 := skip_space s in
  let '(neg, s2) := match s1 with
                    | c :: r => if beq c "-"%byte then (true, r)
                                else if beq c "+"%byte then (false, r) else (false, s1)
                    | [] => (false, [])
                    end in
  let v := digits_val 0 s2 in
  if 18446744073709551615 <? v then None else Some (if neg then - v else v).
(** add_acc_expire_time_epoch, access.c:237-261; None: clean_exit *)
Definition acc_expire_epoch (v : bytes) : option Z := do t <- strtoul10 v; Some (i64 t).
(** add_acc_force_nat, access.c:264-303; None: clean_exit *)
Definition acc_force_nat (v : bytes) (a : acc) : option acc :=
  do (ip, r) <- scan_word 15 v;
  do (p, _) <- scan_num_n 5 r;
  let port := u32 p in
  if 65535 <? port then None
  else if negb (is_valid_ipv4_addr ip (zlen ip)) then None
  else Some (set_s s_nat_ip (Some ip) (set_i i_nat 1 (set_i i_nat_port port a))).
(** add_acc_force_snat, access.c:305-332 *)
Definition acc_force_snat (v : bytes) (a : acc) : option acc :=
  do (ip, _) <- scan_word 15 v;
  if negb (is_valid_ipv4_addr ip (zlen ip)) then None
  else Some (set_s s_snat_ip (Some ip) (set_i i_snat 1 a)).

(** ** The parameters *)
(** What a line changes: the stanza, the static area of getpwnam, and whether user_pw and
    sudo_user_pw point to it *)
Record work := mkWork { w_acc : acc; w_pw : Z * Z; w_user : bool; w_sudo : bool }.
Definition put_acc (a : acc) (w : work) : work := mkWork a (w_pw w) (w_user w) (w_sudo w).
Definition action : Type := system -> bytes -> work -> res work.

Definition on_acc (f : bytes -> acc -> acc) : action := fun _ v w => Done (put_acc (f v (w_acc w)) w).
(** add_acc_string and add_acc_bool, access.c:78-102 and 190-195 *)
Definition a_str (f : sfield) : action := on_acc (fun v => set_s f (Some v)).
Definition a_bool (f : ifield) : action := on_acc (fun v => set_i f (acc_bool v)).
(** access.c:1650-1662, 2361-2373 *)
Definition a_key : action := fun y v w =>
  if changeme v then Failed
  else Done (put_acc (set_i i_use_rijndael 1 (set_i i_key_len (zlen v) (set_s s_key (Some v) (w_acc w)))) w).
(** access.c:1663-1687, 2374-2396 with add_acc_b64_string, 152-188 *)
Definition a_key_base64 : action := fun y v w =>
  if changeme v then Failed
  else if negb (is_base64 v (zlen v)) then Failed
  else match b64_decode v with
       | None => Exited
       | Some k => Done (put_acc (set_i i_use_rijndael 1 (set_i i_key_len (zlen k)
                                    (set_s s_key (Some k) (set_s s_key_base64 (Some v) (w_acc w))))) w)
       end.
(** access.c:1689-1700 *)
Definition a_hmac_type : action := fun y v w =>
  let t := hmac_digest_strtoint v in
  if t <? 0 then Failed else Done (put_acc (set_i i_hmac_type t (w_acc w)) w).
(** access.c:1701-1722 and 1723-1734, 2397-2430 *)
Definition a_hmac_key_base64 : action := fun y v w =>
  if changeme v then Failed
  else if negb (is_base64 v (zlen v)) then Failed
  else match b64_decode v with
       | None => Exited
       | Some k => Done (put_acc (set_i i_hmac_key_len (zlen k) (set_s s_hmac_key (Some k) (set_s s_hmac_key_base64 (Some v) (w_acc w)))) w)
       end.
Definition a_hmac_key : action := fun y v w =>
  if changeme v then Failed
  else Done (put_acc (set_i i_hmac_key_len (zlen v) (set_s s_hmac_key (Some v) (w_acc w))) w).
(** access.c:1735-1758, 1802-1814 *)
Definition a_number (f : ifield) (lo hi : Z) : action := fun y v w =>
  match strtol_wrapper v lo hi with
  | (x, e) => if strtol_ok e then Done (put_acc (set_i f x (w_acc w)) w) else Failed
  end.
(** access.c:1759-1769 *)
Definition a_mode : action := fun y v w =>
  let m := enc_mode_strtoint v in
  if m <? 0 then Failed else Done (put_acc (set_i i_mode m (w_acc w)) w).
(** add_acc_user and add_acc_group, access.c:106-150: getpwnam stores into its static area *)
Definition a_user (sudo : bool) (f : sfield) (g : ifield) : action := fun y v w =>
  match y_pw y v with
  | None => Exited
  | Some (u, gr) => Done (mkWork (set_i g u (set_s f (Some v) (w_acc w))) (u, gr) (w_user w || negb sudo) (w_sudo w || sudo))
  end.
Definition a_group (f : sfield) (g : ifield) : action := fun y v w =>
  match y_pw y v with
  | None => Exited
  | Some (u, gr) => Done (mkWork (set_i g gr (set_s f (Some v) (w_acc w))) (u, gr) (w_user w) (w_sudo w))
  end.
(** access.c:1796-1800 *)
Definition a_cycle_open : action := on_acc (fun v a => set_i i_do_close 1 (set_s s_cycle_open (Some v) a)).
(** access.c:1821-1835 *)
Definition a_gpg_home : action := fun y v w =>
  if y_is_dir y v then Done (put_acc (set_s s_gpg_home_dir (Some v) (w_acc w)) w) else Failed.
(** access.c:1840-1852, 2433-2445 *)
Definition a_gpg_pw : action := fun y v w =>
  if changeme v then Failed
  else Done (put_acc (set_i i_use_gpg 1 (set_s s_gpg_decrypt_pw (Some v) (w_acc w))) w).
(** access.c:1853-1861, 2446-2454 *)
Definition a_allow_no_pw : action := on_acc (fun v a =>
  let a := set_i i_allow_no_pw (acc_bool v) a in
  if acc_bool v =? 1 then set_s s_gpg_decrypt_pw (Some []) (set_i i_use_gpg 1 a) else a).
(** access.c:1878-1888 *)
Definition a_expire : action := fun y v w =>
  match acc_expire_time y v with
  | None => Failed
  | Some t => Done (put_acc (set_i i_expire t (w_acc w)) w)
  end.
Definition a_expire_epoch : action := fun y v w =>
  match acc_expire_epoch v with
  | None => Exited
  | Some t => Done (put_acc (set_i i_expire t (w_acc w)) w)
  end.
(** access.c:1889-1944 *)
Definition nat_enabled (y : system) : bool := yes (y_forwarding y) || yes (y_local_nat y).
Definition a_force_nat : action := fun y v w =>
  if negb (nat_enabled y) then Failed
  else match acc_force_nat v (w_acc w) with None => Exited | Some a => Done (put_acc a w) end.
Definition a_force_snat : action := fun y v w =>
  if negb (nat_enabled y) then Failed
  else match acc_force_snat v (w_acc w) with None => Exited | Some a => Done (put_acc a w) end.
(** access.c:1945-1949 *)
Definition a_masquerade : action := on_acc (fun v a => set_i i_snat (acc_bool v) (set_i i_masquerade (acc_bool v) a)).

(** The chain of comparisons of access.c:1642-1965, after SOURCE and the include directives *)
Definition params : list (bytes * action) :=
  [ ($ "DESTINATION", a_str s_destination);
    ($ "OPEN_PORTS", a_str s_open_ports);
    ($ "RESTRICT_PORTS", a_str s_restrict_ports);
    ($ "KEY", a_key);
    ($ "KEY_BASE64", a_key_base64);
    ($ "HMAC_DIGEST_TYPE", a_hmac_type);
    ($ "HMAC_KEY_BASE64", a_hmac_key_base64);
    ($ "HMAC_KEY", a_hmac_key);
    ($ "FW_ACCESS_TIMEOUT", a_number i_fw_timeout 0 8388608);
    ($ "MAX_FW_TIMEOUT", a_number i_max_timeout 0 8388608);
    ($ "ENCRYPTION_MODE", a_mode);
    ($ "ENABLE_CMD_EXEC", a_bool i_cmd);
    ($ "ENABLE_CMD_SUDO_EXEC", a_bool i_sudo);
    ($ "CMD_SUDO_EXEC_USER", a_user true s_sudo_user i_sudo_uid);
    ($ "CMD_SUDO_EXEC_GROUP", a_group s_sudo_group i_sudo_gid);
    ($ "CMD_EXEC_USER", a_user false s_user i_uid);
    ($ "CMD_EXEC_GROUP", a_group s_group i_gid);
    ($ "CMD_CYCLE_OPEN", a_cycle_open);
    ($ "CMD_CYCLE_CLOSE", a_str s_cycle_close);
    ($ "CMD_CYCLE_TIMER", a_number i_timer 1 8388608);
    ($ "REQUIRE_USERNAME", a_str s_require_username);
    ($ "REQUIRE_SOURCE_ADDRESS", a_bool i_require_source);
    ($ "REQUIRE_SOURCE", a_bool i_require_source);
    ($ "GPG_HOME_DIR", a_gpg_home);
    ($ "GPG_EXE", a_str s_gpg_exe);
    ($ "GPG_DECRYPT_ID", a_str s_gpg_decrypt_id);
    ($ "GPG_DECRYPT_PW", a_gpg_pw);
    ($ "GPG_ALLOW_NO_PW", a_allow_no_pw);
    ($ "GPG_REQUIRE_SIG", a_bool i_require_sig);
    ($ "GPG_DISABLE_SIG", a_bool i_disable_sig);
    ($ "GPG_IGNORE_SIG_VERIFY_ERROR", a_bool i_ignore_sig_error);
    ($ "GPG_REMOTE_ID", a_str s_gpg_remote_id);
    ($ "GPG_FINGERPRINT_ID", a_str s_gpg_remote_fpr);
    ($ "ACCESS_EXPIRE", a_expire);
    ($ "ACCESS_EXPIRE_EPOCH", a_expire_epoch);
    ($ "FORCE_NAT", a_force_nat);
    ($ "FORCE_SNAT", a_force_snat);
    ($ "FORCE_MASQUERADE", a_masquerade);
    ($ "DISABLE_DNAT", a_bool i_disable_dnat);
    ($ "FORWARD_ALL", a_bool i_forward_all) ].
(** The parameters include_keys_file knows, access.c:2361-2470 *)
Definition key_params : list (bytes * action) :=
  [ ($ "KEY", a_key);
    ($ "KEY_BASE64", a_key_base64);
    ($ "HMAC_KEY_BASE64", a_hmac_key_base64);
    ($ "HMAC_KEY", a_hmac_key);
    ($ "GPG_DECRYPT_ID", a_str s_gpg_decrypt_id);
    ($ "GPG_DECRYPT_PW", a_gpg_pw);
    ($ "GPG_ALLOW_NO_PW", a_allow_no_pw);
    ($ "GPG_REQUIRE_SIG", a_bool i_require_sig);
    ($ "GPG_DISABLE_SIG", a_bool i_disable_sig);
    ($ "GPG_IGNORE_SIG_VERIFY_ERROR", a_bool i_ignore_sig_error);
    ($ "GPG_REMOTE_ID", a_str s_gpg_remote_id);
    ($ "GPG_FINGERPRINT_ID", a_str s_gpg_remote_fpr) ].
Fixpoint find_param (l : list (bytes * action)) (n : bytes) : option action :=
  match l with
  | [] => None
  | (m, a) :: r => if bseq n m then Some a else find_param r n
  end.
Definition set_param (l : list (bytes * action)) (y : system) (n v : bytes) (w : work) : res work :=
  match find_param l n with Some a => a y v w | None => Done w end.

(** strrchr(var, ':'), access.c:1553-1554: everything from the last colon on is cut off *)
Fixpoint cut_colon (s : bytes) : bytes :=
  match s with
  | [] => []
  | c :: r => if beq c ":"%byte && negb (memb ":"%byte r) then [] else c :: cut_colon r
  end.
(** The lines fgets delivers *)
Fixpoint lines_of (fuel : nat) (s : bytes) : list bytes :=
  match fuel, s with
  | O, _ | _, [] => []
  | S k, _ => let '(line, t) := fgets (Z.to_nat (MAX_LINE_LEN - 1)) s in cstr line :: lines_of k t
  end.
Definition file_lines (s : bytes) : list bytes := lines_of (List.length s) s.

(** include_keys_file, access.c:2316-2475.  The value keeps its trailing blanks.  On a failure
    the settings made so far stay; the caller does not look at the result. *)
Fixpoint key_lines (y : system) (ls : list bytes) (w : work) : res work :=
  match ls with
  | [] => Done w
  | l :: r =>
      if is_empty_line (hd x00 l) then key_lines y r w
      else match scan_line l with
           | None => Done w
           | Some (var, val) =>
               match set_param key_params y (cut_colon var) val w with
               | Done w' => key_lines y r w'
               | Failed => Done w
               | x => x
               end
           end
  end.
Definition include_keys_file (y : system) (name : bytes) (w : work) : res work :=
  match y_file y name with None => Done w | Some s => key_lines y (file_lines s) w end.

(** ** Checks and defaults *)
Definition strlen_o (o : option bytes) : Z := match o with Some s => zlen (cstr s) | None => 0 end.
Definition isnull (o : option bytes) : bool := match o with None => true | Some _ => false end.
(** memcmp of the first [n] bytes *)
Definition memeq (a b : option bytes) (n : Z) : bool :=
  match a, b with Some x, Some y => bseq (ztake n x) (ztake n y) | _, _ => false end.

(** acc_data_is_valid, access.c:1262-1435: None is 0; otherwise the stanza with its changes and
    whether enable_fw is set.  [pw]: the static area of getpwnam.  Exited: clean_exit *)
Definition legacy_key (a : acc) : acc :=
  if negb (ints a i_use_rijndael =? 0) && negb (isnull (strs a s_key)) && (ints a i_mode =? 8) && (16 <? ints a i_key_len)
  then set_i i_key_len 16 a else a.
Definition no_keys (a : acc) : bool :=
  ((isnull (strs a s_key) || (ints a i_key_len =? 0))
   && ((isnull (strs a s_gpg_decrypt_pw) || (strlen_o (strs a s_gpg_decrypt_pw) =? 0)) && (ints a i_allow_no_pw =? 0)))
  || ((ints a i_use_rijndael =? 0) && (ints a i_use_gpg =? 0) && (ints a i_allow_no_pw =? 0)).
Definition same_keys (a : acc) : bool :=
  if negb (ints a i_hmac_key_len =? 0) && negb (isnull (strs a s_hmac_key)) then
    if negb (isnull (strs a s_key)) && negb (ints a i_key_len =? 0) && (ints a i_key_len =? ints a i_hmac_key_len)
    then memeq (strs a s_key) (strs a s_hmac_key) (ints a i_hmac_key_len)
    else if (ints a i_allow_no_pw =? 0) && negb (isnull (strs a s_gpg_decrypt_pw))
            && (strlen_o (strs a s_gpg_decrypt_pw) =? ints a i_hmac_key_len)
    then memeq (strs a s_gpg_decrypt_pw) (strs a s_hmac_key) (ints a i_hmac_key_len)
    else false
  else false.
Definition check_nat (a : acc) : option acc :=
  if ((ints a i_snat =? 1) || (ints a i_masquerade =? 1)) && (ints a i_nat =? 0) then
    if ints a i_forward_all =? 1 then acc_force_nat ($ "0.0.0.0 0") a else None
  else Some a.
Definition fill_gids (pw : Z * Z) (user sudo : bool) (a : acc) : acc :=
  let a := if user && negb (ints a i_uid =? 0) && (ints a i_gid =? 0) then set_i i_gid (snd pw) a else a in
  if sudo && negb (ints a i_sudo_uid =? 0) && (ints a i_sudo_gid =? 0) then set_i i_sudo_gid (snd pw) a else a.
Definition check_cycle (a : acc) : option acc :=
  match strs a s_cycle_open, strs a s_cycle_close with
  | None, None => Some a
  | None, Some _ | Some _, None => None
  | Some o, Some c =>
      let a := if is_prefix ($ "NONE") c then set_i i_do_close 0 a else a in
      if (ints a i_timer =? 0) && negb (ints a i_do_close =? 0) then None
      else if (CMD_CYCLE_BUFSIZE <=? zlen o) || (CMD_CYCLE_BUFSIZE <=? zlen c) then None
      else Some a
  end.
Definition acc_data_is_valid (pw : Z * Z) (user sudo : bool) (a : acc) : option (acc * bool) :=
  if no_keys a then None
  else let a := legacy_key a in
       if same_keys a then None
       else do a <- check_nat a;
            let a := fill_gids pw user sudo a in
            do a <- check_cycle a;
            Some (a, isnull (strs a s_cycle_open)).

(** expand_acc_ent_lists, access.c:966-1039, on one stanza: the entries are added to the lists.
    None: clean_exit *)
Definition nonempty (o : option bytes) : option bytes := match o with Some (_ :: _) => o | _ => None end.
Definition expand_more {A} (f : bytes -> option (list A)) (o : option bytes) (l : list A) : option (list A) :=
  match o with None => Some l | Some s => do r <- f s; Some (l ++ r) end.
Definition expand_acc (a : acc) : option acc :=
  do ls <- expand_more expand_acc_int_list (Some (match strs a s_source with Some s => s | None => [] end)) (l_source a);
  do ld <- expand_more expand_acc_int_list (nonempty (strs a s_destination)) (l_dest a);
  do lo <- expand_more expand_acc_port_list (nonempty (strs a s_open_ports)) (l_open a);
  do lr <- expand_more expand_acc_port_list (nonempty (strs a s_restrict_ports)) (l_restrict a);
  do li <- expand_more expand_acc_string_list (nonempty (strs a s_gpg_remote_id)) (l_ids a);
  do lf <- expand_more expand_acc_string_list (nonempty (strs a s_gpg_remote_fpr)) (l_fprs a);
  Some (mkAcc (strs a) (ints a) ls ld lo lr li lf).
Fixpoint expand_all (l : list acc) : option (list acc) :=
  match l with
  | [] => Some []
  | a :: r => do b <- expand_acc a; do t <- expand_all r; Some (b :: t)
  end.

(** set_acc_defaults, access.c:1165-1258, on one stanza; None: clean_exit *)
Definition acc_defaults (y : system) (a : acc) : option acc :=
  let a := if ints a i_fw_timeout <? 1 then set_i i_fw_timeout 30 a else a in
  let a := if ints a i_max_timeout <? 1 then set_i i_max_timeout 300 a else a in
  do a <- (if isnull (strs a s_gpg_decrypt_pw) then Some a
           else let a := if isnull (strs a s_gpg_home_dir) then set_s s_gpg_home_dir (Some (y_gpg_home y)) a else a in
                let a := if (ints a i_require_sig =? 0) && (ints a i_disable_sig =? 0) then set_i i_require_sig 1 a else a in
                if (ints a i_disable_sig =? 0) && (isnull (strs a s_gpg_remote_id) && isnull (strs a s_gpg_remote_fpr))
                then None else Some a);
  let a := if ints a i_mode =? 0 then set_i i_mode 2 a else a in
  Some (if (ints a i_hmac_type =? 0) && (0 <? ints a i_hmac_key_len) && negb (isnull (strs a s_hmac_key))
        then set_i i_hmac_type 3 a else a).
Fixpoint defaults_all (y : system) (l : list acc) : option (list acc) :=
  match l with
  | [] => Some []
  | a :: r => do b <- acc_defaults y a; do t <- defaults_all y r; Some (b :: t)
  end.

(** ** Files *)
(** opts->acc_stanzas, opts->enable_fw, *depth and the static area of getpwnam *)
Record state := mkState { st_accs : list acc; st_fw : bool; st_depth : Z; st_pw : Z * Z }.
Definition put_accs (l : list acc) (s : state) : state := mkState l (st_fw s) (st_depth s) (st_pw s).
Definition put_depth (d : Z) (s : state) : state := mkState (st_accs s) (st_fw s) d (st_pw s).
(** The local variables of parse_access_file: curr_acc (the position in the list), user_pw and
    sudo_user_pw != NULL *)
Record local := mkLocal { lo_curr : option nat; lo_user : bool; lo_sudo : bool }.

Definition get_acc (n : nat) (s : state) : acc := nth n (st_accs s) new_acc.
Fixpoint replace {A} (n : nat) (x : A) (l : list A) : list A :=
  match n, l with
  | O, _ :: r => x :: r
  | S k, y :: r => y :: replace k x r
  | _, [] => []
  end.
(** acc_data_is_valid on the current stanza: None if it is not valid *)
Definition validate (n : nat) (lo : local) (s : state) : option state :=
  do (a, fw) <- acc_data_is_valid (st_pw s) (lo_user lo) (lo_sudo lo) (get_acc n s);
  Some (mkState (replace n a (st_accs s)) (st_fw s || fw) (st_depth s) (st_pw s)).
Definition work_of (n : nat) (lo : local) (s : state) : work := mkWork (get_acc n s) (st_pw s) (lo_user lo) (lo_sudo lo).
Definition put_work (n : nat) (w : work) (s : state) : local * state :=
  (mkLocal (Some n) (w_user w) (w_sudo w), mkState (replace n (w_acc w) (st_accs s)) (st_fw s) (st_depth s) (w_pw w)).

Section files.
Variable y : system.
(** The recursive call of parse_access_file *)
Variable rec : bytes -> state -> res state.

(** parse_access_folder, access.c:1437-1477: strrchr, chop_char and the length of the path *)
Definition MAX_PATH_LEN : Z := 1024.
Fixpoint extension (s : bytes) : option bytes :=
  match s with
  | [] => None
  | c :: r => if beq c "."%byte && negb (memb "."%byte r) then Some s else extension r
  end.
Definition chop_slash (s : bytes) : bytes :=
  if (1 <? zlen s) && beq (last s x00) "/"%byte then removelast s else s.
Fixpoint folder_files (folder : bytes) (names : list bytes) (s : state) : res state :=
  match names with
  | [] => Done s
  | n :: r =>
      match extension n with
      | Some e =>
          if is_prefix ($ ".conf") e then
            if MAX_PATH_LEN - 1 <? zlen folder + 1 + zlen n then Failed
            else let* s := rec (folder ++ $ "/" ++ n) s in folder_files folder r s
          else folder_files folder r s
      | None => folder_files folder r s
      end
  end.
Definition parse_folder (folder : bytes) (s : state) : res state :=
  let folder := chop_slash folder in
  match y_dir y folder with
  | None => Failed
  | Some names => folder_files folder names s
  end.

(** One line, access.c:1531-1972 *)
Definition access_entry (var val : bytes) (lo : local) (s : state) : res (local * state) :=
  if bseq var ($ "%include") then
    if st_depth s <? 3 then let* s := rec val s in Done (lo, s) else Failed
  else if bseq var ($ "%include_folder") then let* s := parse_folder val s in Done (lo, s)
  else if bseq var ($ "SOURCE") then
    match (match lo_curr lo with Some n => validate n lo s | None => Some s end) with
    | None => Failed
    | Some s => Done (mkLocal (Some (List.length (st_accs s))) (lo_user lo) (lo_sudo lo),
                      put_accs (st_accs s ++ [set_s s_source (Some val) new_acc]) s)
    end
  else match lo_curr lo with
  | None => Done (lo, s)
  | Some n =>
      if bseq var ($ "%include_keys") then
        let* w := include_keys_file y val (work_of n lo s) in
        let '(lo, s) := put_work n w s in
        match validate n lo s with
        | Some s => Done (lo, s)
        | None => Done (mkLocal None (lo_user lo) (lo_sudo lo), put_accs (removelast (st_accs s)) s)
        end
      else let* w := set_param params y var val (work_of n lo s) in Done (put_work n w s)
  end.
Definition access_line (l : bytes) (lo : local) (s : state) : res (local * state) :=
  if is_empty_line (hd x00 l) then Done (lo, s)
  else match scan_line l with
       | None => Failed
       | Some (var, val) => access_entry (cut_colon var) (chop_whitespace val) lo s
       end.
Fixpoint access_lines (ls : list bytes) (lo : local) (s : state) : res (local * state) :=
  match ls with
  | [] => Done (lo, s)
  | l :: r => let* (lo, s) := access_line l lo s in access_lines r lo s
  end.
(** The end of parse_access_file, access.c:1974-2019 *)
Definition finish (lo : local) (s : state) : res state :=
  let s := put_depth (if 0 <? st_depth s then st_depth s - 1 else st_depth s) s in
  match (match lo_curr lo with Some n => validate n lo s | None => Some s end) with
  | None => Failed
  | Some s =>
      if st_depth s =? 0 then
        match lo_curr lo, st_accs s with
        | None, [] => Failed
        | _, _ => match expand_all (st_accs s) with
                  | None => Exited
                  | Some l => match defaults_all y l with None => Exited | Some l => Done (put_accs l s) end
                  end
        end
      else Done s
  end.
End files.

(** parse_access_file, access.c:1481-2020.  [fuel] bounds the nesting of files.  The stanzas are
    freed by acc_stanza_init only at the first file after a start, when there are none. *)
Fixpoint parse_access_file (fuel : nat) (y : system) (name : bytes) (s : state) : res state :=
  match fuel with
  | O => Endless
  | S k =>
      let s := put_depth (st_depth s + 1) s in
      match y_file y name with
      | None => Failed
      | Some text =>
          let* (lo, s) := access_lines y (parse_access_file k y) (file_lines text) (mkLocal None false false) s in
          finish y lo s
      end
  end.
Definition parse_access_folder (fuel : nat) (y : system) (folder : bytes) (s : state) : res state :=
  parse_folder y (parse_access_file fuel y) folder s.

(** valid_access_stanzas, access.c:2022-2043 *)
Definition valid_access_stanzas (l : list acc) : bool :=
  negb (match l with [] => true | _ => false end)
  && forallb (fun a => match strs a s_source with Some (_ :: _) => true | _ => false end) l.
(** fwknopd.c:164-183: the stanzas the daemon starts with and enable_fw.  [folder]: ACCESS_FOLDER *)
Definition start : state := mkState [] false 0 (0, 0).
Definition load_access (fuel : nat) (y : system) (file : bytes) (folder : option bytes) : res (list acc * bool) :=
  let* s := match folder with
            | Some f => parse_access_folder fuel y f start
            | None => parse_access_file fuel y file start
            end in
  if valid_access_stanzas (st_accs s) then Done (st_accs s, st_fw s) else Exited.

(** ** The stanza as process_spa_data uses it (M_incoming) *)
(** The bytes of a key, by its length *)
Definition key_bytes (o : option bytes) (len : Z) : option bytes :=
  match o with Some k => if len =? 0 then Some [] else Some (ztake len k) | None => None end.
Definition on (z : Z) : bool := negb (z =? 0).
Definition to_stanza (a : acc) : stanza :=
  mkStanza (l_source a) (match strs a s_destination with None => None | Some _ => Some (l_dest a) end)
    (ints a i_expire) false
    (on (ints a i_use_rijndael)) (key_bytes (strs a s_key) (ints a i_key_len)) (ints a i_mode)
    (key_bytes (strs a s_hmac_key) (ints a i_hmac_key_len)) (ints a i_hmac_type)
    (on (ints a i_use_gpg)) (negb (isnull (strs a s_gpg_decrypt_pw)) || on (ints a i_allow_no_pw))
    (on (ints a i_require_sig)) (on (ints a i_ignore_sig_error))
    (match strs a s_gpg_remote_fpr with None => None | Some _ => Some (l_fprs a) end)
    (match strs a s_gpg_remote_id with None => None | Some _ => Some (l_ids a) end)
    (on (ints a i_require_source)) (strs a s_require_username)
    (on (ints a i_cmd)) (on (ints a i_sudo)) (strs a s_sudo_user) (strs a s_sudo_group)
    (strs a s_user) (strs a s_group) (ints a i_uid) (ints a i_gid)
    (match strs a s_cycle_open with
     | Some o => Some (mkCC o (match strs a s_cycle_close with Some c => c | None => [] end) (on (ints a i_do_close)) (ints a i_timer))
     | None => None end)
    (l_open a) (l_restrict a) (ints a i_fw_timeout) (ints a i_max_timeout)
    (mkNat (on (ints a i_nat)) (match strs a s_nat_ip with Some x => x | None => [] end) (ints a i_nat_port)
       (on (ints a i_forward_all)) (on (ints a i_disable_dnat)) (on (ints a i_snat))
       (match strs a s_snat_ip with Some x => x | None => [] end) (on (ints a i_masquerade))).
