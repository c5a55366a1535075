(** Model of the configuration of the client: client/config_init.c (command line, ~/.fwknoprc,
    checks, --save-rc-stanza), client/fwknop.c:850-1036 (saved arguments).
    Not modelled: getopt_long (the options come as a list), log messages, the search for the
    home directory and the check of the owner and permissions of the rc file (the file is one
    that passes), key generation (with -k the program ends after config_init). *)
From Verif Require Import Bytes M_accfile M_base64 M_util M_message M_codec M_cipher M_ctx M_access M_replay M_cycle M_incoming M_conf M_codec M_client M_send.
From Coq Require Import Init.Byte List ZArith Bool.
Import ListNotations.
Open Scope Z_scope.

(** ** The options: fko_cli_options_t, client/fwknop_common.h:75-195 *)
(** Numbers and flags; [q_have_url]: resolve_url is not NULL *)
Inductive qfield :=
  | q_digest | q_proto | q_dport | q_sport | q_timeout | q_plus | q_minus | q_mode
  | q_use_gpg | q_gpg_agent | q_gpg_no_pw | q_rand_port | q_have_key | q_have_key64 | q_have_hmac | q_have_hmac64
  | q_hmac_type | q_use_hmac | q_wget_agent | q_resolve | q_http_only | q_have_url | q_ipv4 | q_nat_local | q_nat_rand | q_nat_port
  | q_verbose | q_no_save | q_test | q_key_gen | q_version | q_show_last | q_run_last | q_icmp_type | q_icmp_code | q_append
  | q_key_len | q_hmac_key_len | q_no_home | q_no_rc | q_got | q_save | q_force | q_list | q_fd.
(** Texts *)
Inductive tfield :=
  | t_access | t_server | t_ip | t_spoof_ip | t_user | t_recipient | t_signer | t_gpg_home | t_gpg_exe
  | t_key | t_key64 | t_hmac | t_hmac64 | t_key_file | t_hmac_file | t_nat | t_agent | t_url | t_wget
  | t_command | t_save_file | t_args_file | t_rc_file | t_stanza | t_proxy | t_gen_file.
Scheme Equality for qfield.
Scheme Equality for tfield.
Record copts := mkCopts { num : qfield -> Z; txt : tfield -> bytes }.
(** The size of the array; None: allocated as needed *)
Definition size (f : tfield) : option Z :=
  match f with
  | t_server => Some 50 | t_ip | t_spoof_ip => Some 16 | t_user => Some 30 | t_recipient | t_signer => Some 128
  | t_key | t_hmac => Some 129 | t_key64 | t_hmac64 => Some 181 | t_agent => Some 100 | t_proxy => Some 2000
  | t_url | t_wget => None
  | _ => Some 1024
  end.
Definition fit (f : tfield) (v : bytes) : bytes := match size f with Some n => ztake (n - 1) v | None => v end.
Definition set_n (f : qfield) (z : Z) (o : copts) : copts := mkCopts (fun g => if qfield_beq g f then z else num o g) (txt o).
(** strlcpy into the array *)
Definition set_t (f : tfield) (v : bytes) (o : copts) : copts :=
  mkCopts (num o) (fun g => if tfield_beq g f then fit f v else txt o g).
(** memset and set_defaults, config_init.c:1944-1967 and 1979 *)
Definition defaults : copts :=
  mkCopts (fun f => match f with q_dport => 62201 | q_timeout | q_fd => -1 | _ => 0 end) (fun _ => []).

(** ** Variables of the rc file: config_init.c:89-187 *)
Inductive var :=
  | V_DIGEST_TYPE | V_SPA_SERVER_PROTO | V_SPA_SERVER_PORT | V_SPA_SOURCE_PORT | V_FW_TIMEOUT | V_ALLOW_IP | V_TIME_OFFSET
  | V_ENCRYPTION_MODE | V_USE_GPG | V_USE_GPG_AGENT | V_GPG_RECIPIENT | V_GPG_SIGNER | V_GPG_HOMEDIR | V_GPG_EXE
  | V_GPG_SIGNING_PW | V_GPG_SIGNING_PW_BASE64 | V_GPG_NO_SIGNING_PW | V_SPOOF_USER | V_SPOOF_SOURCE_IP | V_ACCESS
  | V_SPA_SERVER | V_RAND_PORT | V_KEY | V_KEY_BASE64 | V_HMAC_DIGEST_TYPE | V_HMAC_KEY_BASE64 | V_HMAC_KEY | V_USE_HMAC
  | V_USE_WGET_USER_AGENT | V_KEY_FILE | V_HMAC_KEY_FILE | V_NAT_ACCESS | V_HTTP_USER_AGENT | V_RESOLVE_URL
  | V_SERVER_RESOLVE_IPV4 | V_NAT_LOCAL | V_NAT_RAND_PORT | V_NAT_PORT | V_VERBOSE | V_RESOLVE_IP_HTTP | V_RESOLVE_IP_HTTPS
  | V_RESOLVE_HTTP_ONLY | V_WGET_CMD | V_NO_SAVE_ARGS.
Scheme Equality for var.
(** fko_var_array *)
Definition var_array : list (bytes * var) :=
  [ ($ "DIGEST_TYPE", V_DIGEST_TYPE); ($ "SPA_SERVER_PROTO", V_SPA_SERVER_PROTO); ($ "SPA_SERVER_PORT", V_SPA_SERVER_PORT);
    ($ "SPA_SOURCE_PORT", V_SPA_SOURCE_PORT); ($ "FW_TIMEOUT", V_FW_TIMEOUT); ($ "ALLOW_IP", V_ALLOW_IP);
    ($ "TIME_OFFSET", V_TIME_OFFSET); ($ "ENCRYPTION_MODE", V_ENCRYPTION_MODE); ($ "USE_GPG", V_USE_GPG);
    ($ "USE_GPG_AGENT", V_USE_GPG_AGENT); ($ "GPG_RECIPIENT", V_GPG_RECIPIENT); ($ "GPG_SIGNER", V_GPG_SIGNER);
    ($ "GPG_HOMEDIR", V_GPG_HOMEDIR); ($ "GPG_EXE", V_GPG_EXE); ($ "GPG_SIGNING_PW", V_GPG_SIGNING_PW);
    ($ "GPG_SIGNING_PW_BASE64", V_GPG_SIGNING_PW_BASE64); ($ "GPG_NO_SIGNING_PW", V_GPG_NO_SIGNING_PW);
    ($ "SPOOF_USER", V_SPOOF_USER); ($ "SPOOF_SOURCE_IP", V_SPOOF_SOURCE_IP); ($ "ACCESS", V_ACCESS);
    ($ "SPA_SERVER", V_SPA_SERVER); ($ "RAND_PORT", V_RAND_PORT); ($ "KEY", V_KEY); ($ "KEY_BASE64", V_KEY_BASE64);
    ($ "HMAC_DIGEST_TYPE", V_HMAC_DIGEST_TYPE); ($ "HMAC_KEY_BASE64", V_HMAC_KEY_BASE64); ($ "HMAC_KEY", V_HMAC_KEY);
    ($ "USE_HMAC", V_USE_HMAC); ($ "USE_WGET_USER_AGENT", V_USE_WGET_USER_AGENT); ($ "KEY_FILE", V_KEY_FILE);
    ($ "HMAC_KEY_FILE", V_HMAC_KEY_FILE); ($ "NAT_ACCESS", V_NAT_ACCESS); ($ "HTTP_USER_AGENT", V_HTTP_USER_AGENT);
    ($ "RESOLVE_URL", V_RESOLVE_URL); ($ "SERVER_RESOLVE_IPV4", V_SERVER_RESOLVE_IPV4); ($ "NAT_LOCAL", V_NAT_LOCAL);
    ($ "NAT_RAND_PORT", V_NAT_RAND_PORT); ($ "NAT_PORT", V_NAT_PORT); ($ "VERBOSE", V_VERBOSE);
    ($ "RESOLVE_IP_HTTP", V_RESOLVE_IP_HTTP); ($ "RESOLVE_IP_HTTPS", V_RESOLVE_IP_HTTPS);
    ($ "RESOLVE_HTTP_ONLY", V_RESOLVE_HTTP_ONLY); ($ "WGET_CMD", V_WGET_CMD); ($ "NO_SAVE_ARGS", V_NO_SAVE_ARGS) ].
(** lookup_var_by_name, config_init.c:402-421 *)
Fixpoint lookup (l : list (bytes * var)) (n : bytes) : option var :=
  match l with
  | [] => None
  | (m, x) :: r => if bseq n m then Some x else lookup r n
  end.

(** parse_time_offset, config_init.c:754-799: None is a return without a value; otherwise the
    value, which is stored, and whether the call succeeds.  The product is an int. *)
Fixpoint offset_digits (s : bytes) (d : bytes) : option (bytes * Z) :=
  match s with
  | [] => Some (d, 1)
  | c :: r =>
      if isdigit c then if 9 <=? zlen d + 1 then None else offset_digits r (d ++ [c])
      else if beq c "m"%byte || beq c "M"%byte then Some (d, 60)
      else if beq c "h"%byte || beq c "H"%byte then Some (d, 3600)
      else if beq c "d"%byte || beq c "D"%byte then Some (d, 86400)
      else offset_digits r d
  end.
Definition time_offset (s : bytes) : outcome (option (Z * bool)) :=
  match offset_digits s [] with
  | None | Some ([], _) => Ok None
  | Some (d, k) =>
      let '(n, e) := strtol_wrapper d 0 65536 in
      if (n * k <? -2147483648) || (2147483647 <? n * k) then Fault else Ok (Some (n * k, strtol_ok e))
  end.

(** proto_strtoint and proto_inttostr, client/utils.c:48-56, 238-288; the values are those of
    the enumeration common/common.h:134-142. *)
Definition protos : list (bytes * Z) :=
  [ ($ "udpraw", 1); ($ "udp", 0); ($ "tcpraw", 3); ($ "tcp", 2); ($ "icmp", 4); ($ "http", 5) ].
Fixpoint name_value (l : list (bytes * Z)) (v : bytes) : Z :=
  match l with [] => -1 | (n, z) :: r => if strcaseeq v n then z else name_value r v end.
Fixpoint value_name (l : list (bytes * Z)) (d : bytes) (z : Z) : bytes :=
  match l with [] => d | (n, x) :: r => if x =? z then n else value_name r d z end.
(** digest_inttostr and enc_mode_inttostr, common/fko_util.c:272-309, 382-419, 479-505 *)
Definition digest_names : list (bytes * Z) :=
  [ ($ "MD5", 1); ($ "SHA1", 2); ($ "SHA256", 3); ($ "SHA384", 4); ($ "SHA512", 5); ($ "SHA3_256", 6); ($ "SHA3_512", 7) ].
Definition mode_names : list (bytes * Z) :=
  [ ($ "CBC", 2); ($ "ECB", 1); ($ "CFB", 3); ($ "OFB", 5); ($ "CTR", 6); ($ "Asymmetric", 7); ($ "legacy", 8) ].

(** is_yes_str, config_init.c:478-489 *)
Definition is_yes (v : bytes) : bool := strcaseeq ($ "Y") v.

(** parse_rc_param, config_init.c:913-1311: whether the value is accepted, and the options *)
Definition eff : Type := copts -> outcome (bool * copts).
Definition e_name (f : qfield) (z : Z) : eff := fun o => if z <? 0 then Ok (false, o) else Ok (true, set_n f z o).
Definition e_number (f : qfield) (hi : Z) (v : bytes) : eff := fun o =>
  let '(n, e) := strtol_wrapper v 0 hi in if strtol_ok e then Ok (true, set_n f n o) else Ok (false, o).
Definition e_yes (f : qfield) (v : bytes) : eff := fun o => Ok (true, if is_yes v then set_n f 1 o else o).
Definition e_text (f : tfield) (v : bytes) : eff := fun o => Ok (true, set_t f v o).
Definition e_offset (f : qfield) (v : bytes) : eff := fun o =>
  match time_offset v with
  | Fault => Fault
  | Ok None => Ok (false, o)
  | Ok (Some (z, ok)) => Ok (ok, set_n f z o)
  end.
Definition parse_rc_param (x : var) (v : bytes) : eff :=
  match x with
  | V_DIGEST_TYPE => e_name q_digest (hmac_digest_strtoint v)   (* digest_strtoint, fko_util.c:239-259, is the same *)
  | V_SPA_SERVER_PROTO => e_name q_proto (name_value protos v)
  | V_SPA_SERVER_PORT => e_number q_dport MAX_PORT v
  | V_SPA_SOURCE_PORT => e_number q_sport MAX_PORT v
  | V_FW_TIMEOUT => e_number q_timeout 65536 v
  | V_ALLOW_IP => fun o =>
      let o := set_n q_resolve 0 o in
      if strcaseeq v ($ "source") then Ok (true, set_t t_ip ($ "0.0.0.0") o)
      else if strcaseeq v ($ "resolve") then Ok (true, set_n q_resolve 1 o)
      else let o := set_t t_ip v o in Ok (is_valid_ipv4_addr (txt o t_ip) (zlen (txt o t_ip)), o)
  | V_TIME_OFFSET => fun o =>
      match v with
      | c :: r => if beq c "-"%byte then e_offset q_minus r o else e_offset q_plus v o
      | [] => e_offset q_plus v o
      end
  | V_ENCRYPTION_MODE => e_name q_mode (enc_mode_strtoint v)
  | V_USE_GPG => e_yes q_use_gpg v
  | V_USE_GPG_AGENT => e_yes q_gpg_agent v
  | V_GPG_NO_SIGNING_PW => e_yes q_gpg_no_pw v
  | V_GPG_RECIPIENT => e_text t_recipient v
  | V_GPG_SIGNER => e_text t_signer v
  | V_GPG_HOMEDIR => e_text t_gpg_home v
  | V_GPG_EXE => e_text t_gpg_exe v
  | V_SPOOF_USER => e_text t_user v
  | V_SPOOF_SOURCE_IP => e_text t_spoof_ip v
  | V_ACCESS => e_text t_access v
  | V_SPA_SERVER => e_text t_server v
  | V_RAND_PORT => e_yes q_rand_port v
  | V_KEY | V_GPG_SIGNING_PW => fun o => Ok (true, set_n q_have_key 1 (set_t t_key v o))
  | V_KEY_BASE64 | V_GPG_SIGNING_PW_BASE64 => fun o => Ok (is_base64 v (zlen v), set_n q_have_key64 1 (set_t t_key64 v o))
  | V_HMAC_DIGEST_TYPE => e_name q_hmac_type (hmac_digest_strtoint v)
  | V_HMAC_KEY_BASE64 => fun o => Ok (is_base64 v (zlen v), set_n q_use_hmac 1 (set_n q_have_hmac64 1 (set_t t_hmac64 v o)))
  | V_HMAC_KEY => fun o => Ok (true, set_n q_use_hmac 1 (set_n q_have_hmac 1 (set_t t_hmac v o)))
  | V_USE_HMAC => e_yes q_use_hmac v
  | V_USE_WGET_USER_AGENT => e_yes q_wget_agent v
  | V_KEY_FILE => e_text t_key_file v
  | V_HMAC_KEY_FILE => e_text t_key_file v                      (* line 1186: the other array *)
  | V_NAT_ACCESS => e_text t_nat v
  | V_HTTP_USER_AGENT => e_text t_agent v
  | V_RESOLVE_URL => fun o => Ok (true, set_n q_have_url 1 (set_t t_url v o))
  | V_SERVER_RESOLVE_IPV4 => e_yes q_ipv4 v
  | V_WGET_CMD => e_text t_wget v
  | V_NAT_LOCAL => e_yes q_nat_local v
  | V_NAT_RAND_PORT => e_yes q_nat_rand v
  | V_NAT_PORT => e_number q_nat_port MAX_PORT v
  | V_VERBOSE => fun o => if is_yes v then Ok (true, set_n q_verbose 1 o) else e_number q_verbose 4 v o
  | V_RESOLVE_IP_HTTPS | V_RESOLVE_IP_HTTP => e_yes q_resolve v
  | V_RESOLVE_HTTP_ONLY => e_yes q_http_only v
  | V_NO_SAVE_ARGS => e_yes q_no_save v
  end.

(** ** Lines of the rc file *)
(** is_rc_section, config_init.c:505-541 *)
Definition rc_section (l : bytes) : option bytes :=
  match skip_space l with
  | c :: r => if beq c "["%byte then
                match strchr "]"%byte r with Some t => Some (ztake (zlen r - zlen t) r) | None => None end
              else None
  | [] => None
  end.
(** is_rc_param, config_init.c:552-590: sscanf with "%s %[^ ;\t\n\r#]" *)
Definition rc_value_char (c : byte) : bool := negb (memb c [" "%byte; ";"%byte; x09; x0a; x0d; "#"%byte]).
Definition rc_param (l : bytes) : option (bytes * bytes) :=
  let '(n, r) := span (fun c => negb (isspace c)) (skip_space l) in
  match n with
  | [] => None
  | _ => let '(v, _) := span rc_value_char (skip_space r) in
         match v with [] => None | _ => Some (cut_colon n, chop_whitespace v) end
  end.
(** process_rc_section, config_init.c:1528-1611, on the lines fgets delivers.  [here]: in the
    section; [bad]: do_exit *)
Fixpoint rc_lines (sec : bytes) (ls : list bytes) (here bad : bool) (o : copts) : step copts :=
  match ls with
  | [] => if bad then fail else ret o
  | l :: r =>
      if is_empty_line (hd x00 l) then rc_lines sec r here bad o
      else match rc_section l with
      | Some n => rc_lines sec r (strcaseeq n sec) bad (if strcaseeq n (txt o t_stanza) then set_n q_got 1 o else o)
      | None =>
          if negb here then rc_lines sec r here bad o
          else match rc_param l with
          | None => fail
          | Some (n, v) =>
              match (match lookup var_array n with Some x => parse_rc_param x v o | None => Ok (false, o) end) with
              | Fault => Fault
              | Ok (good, o') => rc_lines sec r here (bad || negb good) o'
              end
          end
      end
  end.
(** [rc]: the contents of the file, None if there is none (a file with comments only is then
    created). *)
Definition process_rc_section (rc : option bytes) (sec : bytes) (o : copts) : step copts :=
  match rc with None => ret o | Some s => rc_lines sec (file_lines s) false false o end.

(** ** The command line *)
(** The options of GETOPTS_OPTION_STRING and cmd_opts, client/cmd_opts.h:85-170; one that takes
    an argument comes with it, the others with the empty text. *)
Inductive copt :=
  | O_a | O_A | O_b | O_B | O_C | O_D | O_E | O_f | O_g | O_G | O_h | O_H | O_k | O_K | O_l | O_m | O_M | O_n | O_N
  | O_p | O_P | O_Q | O_r | O_R | O_s | O_S | O_T | O_u | O_U | O_v | O_V | O_w
  | O_nat_local | O_nat_port | O_nat_rand_port | O_no_home_dir | O_no_rc_file | O_time_minus | O_time_plus
  | O_save_rc_stanza | O_force_stanza | O_stanza_list | O_no_save_args | O_show_last | O_rc_file | O_resolve_http_only
  | O_resolve_url | O_server_resolve_ipv4 | O_use_hmac | O_use_wget_user_agent | O_icmp_type | O_icmp_code
  | O_key_len | O_hmac_digest_type | O_hmac_key_len | O_get_hmac_key | O_key_rijndael | O_key_base64_rijndael
  | O_key_base64_hmac | O_key_hmac | O_stdin | O_fd | O_fault_injection_tag
  | O_gpg_recipient_key | O_gpg_signer_key | O_gpg_home_dir | O_gpg_exe | O_gpg_agent | O_gpg_no_signing_pw | O_unknown.
Definition arg : Type := copt * bytes.
(** The variables given on the command line: fko_var_bitmask_t *)
Definition mask : Type := list var.

(** First pass, config_init.c:1986-2023; None: the program ends (usage) *)
Definition first_arg (a : arg) (s : copts * mask) : step (copts * mask) :=
  let '(c, v) := a in let '(o, m) := s in
  match c with
  | O_h => fail
  | O_no_save_args => ret (set_n q_no_save 1 o, m)
  | O_n => ret (set_t t_stanza v o, m)
  | O_no_home_dir => ret (set_n q_no_home 1 o, m)
  | O_no_rc_file => ret (set_n q_no_rc 1 o, m)
  | O_save_rc_stanza => ret (set_n q_save 1 o, m)
  | O_stanza_list => ret (set_n q_list 1 o, m)
  | O_E => ret (set_t t_args_file v o, m)
  | O_rc_file => ret (set_t t_rc_file v o, m)
  | O_v => ret (set_n q_verbose ((num o q_verbose + 1) mod 256) o, V_VERBOSE :: m)
  | _ => ret (o, m)
  end.
(** Second pass, config_init.c:2073-2479 *)
Definition s_number (f : qfield) (lo hi : Z) (v : bytes) (o : copts) : step copts :=
  let '(n, e) := strtol_wrapper v lo hi in if strtol_ok e then ret (set_n f n o) else fail.
Definition s_offset (f : qfield) (v : bytes) (o : copts) : step copts :=
  match e_offset f v o with Fault => Fault | Ok (true, o) => ret o | Ok (false, _) => fail end.
Definition second_arg (a : arg) (s : copts * mask) : step (copts * mask) :=
  let '(c, v) := a in let '(o, m) := s in
  let plain (o : copts) : step (copts * mask) := ret (o, m) in
  let flag (f : qfield) (x : var) : step (copts * mask) := ret (set_n f 1 o, x :: m) in
  let text (f : tfield) (x : var) : step (copts * mask) := ret (set_t f v o, x :: m) in
  let with_var (x : var) (r : step copts) : step (copts * mask) := try o <- r; ret (o, x :: m) in
  let gpg (o : copts) (x : var) : step (copts * mask) := ret (set_n q_use_gpg 1 o, x :: V_USE_GPG :: m) in
  match c with
  | O_a => text t_ip V_ALLOW_IP
  | O_A => text t_access V_ACCESS
  | O_b => plain (set_n q_append 1 o)
  | O_B => plain (set_t t_save_file v o)
  | O_C => plain (set_t t_command v o)
  | O_D => text t_server V_SPA_SERVER
  | O_E => plain (set_t t_args_file v o)
  | O_f => with_var V_FW_TIMEOUT (s_number q_timeout 0 131072 v o)
  | O_fault_injection_tag => fail
  | O_g => flag q_use_gpg V_USE_GPG
  | O_G => text t_key_file V_KEY_FILE
  | O_get_hmac_key => ret (set_n q_use_hmac 1 (set_t t_hmac_file v o), V_HMAC_KEY_FILE :: m)
  | O_H => plain (set_t t_proxy v (set_n q_proto 5 o))
  | O_k => plain (set_n q_key_gen 1 o)
  | O_K => plain (set_t t_gen_file v (set_n q_key_gen 1 o))
  | O_key_rijndael => ret (set_n q_have_key 1 (set_t t_key v o), V_KEY :: m)
  | O_key_base64_rijndael =>
      if is_base64 v (zlen v) then ret (set_n q_have_key64 1 (set_t t_key64 v o), V_KEY_BASE64 :: m) else fail
  | O_key_base64_hmac =>
      if is_base64 v (zlen v)
      then ret (set_n q_use_hmac 1 (set_n q_have_hmac64 1 (set_t t_hmac64 v o)), V_USE_HMAC :: V_HMAC_KEY_BASE64 :: m) else fail
  | O_key_hmac => ret (set_n q_use_hmac 1 (set_n q_have_hmac 1 (set_t t_hmac v o)), V_USE_HMAC :: V_HMAC_KEY :: m)
  | O_key_len => try o <- s_number q_key_len 1 MAX_KEY_LEN v o; plain o
  | O_hmac_digest_type =>
      let z := hmac_digest_strtoint v in
      if z <? 0 then fail else ret (set_n q_use_hmac 1 (set_n q_hmac_type z o), V_USE_HMAC :: V_HMAC_DIGEST_TYPE :: m)
  | O_hmac_key_len => try o <- s_number q_hmac_key_len 1 MAX_KEY_LEN v o; ret (set_n q_use_hmac 1 o, V_USE_HMAC :: m)
  | O_icmp_type => try o <- s_number q_icmp_type 0 40 v o; plain o
  | O_icmp_code => try o <- s_number q_icmp_code 0 15 v o; plain o
  | O_l => plain (set_n q_run_last 1 o)
  | O_m => let z := hmac_digest_strtoint v in if z <? 0 then fail else ret (set_n q_digest z o, V_DIGEST_TYPE :: m)
  | O_M => let z := enc_mode_strtoint v in if z <? 0 then fail else ret (set_n q_mode z o, V_ENCRYPTION_MODE :: m)
  | O_no_save_args => flag q_no_save V_NO_SAVE_ARGS
  | O_n | O_save_rc_stanza | O_v | O_no_home_dir | O_no_rc_file => plain o
  | O_N => text t_nat V_NAT_ACCESS
  | O_p => with_var V_SPA_SERVER_PORT (s_number q_dport 0 MAX_PORT v o)
  | O_P => let z := name_value protos v in if z <? 0 then fail else ret (set_n q_proto z o, V_SPA_SERVER_PROTO :: m)
  | O_Q => text t_spoof_ip V_SPOOF_SOURCE_IP
  | O_rc_file => plain (set_t t_rc_file v o)
  | O_r => flag q_rand_port V_RAND_PORT
  | O_R => flag q_resolve V_RESOLVE_IP_HTTPS
  | O_resolve_http_only => ret (set_n q_resolve 1 (set_n q_http_only 1 o), V_RESOLVE_IP_HTTPS :: V_RESOLVE_HTTP_ONLY :: m)
  | O_resolve_url => ret (set_n q_have_url 1 (set_t t_url v o), V_RESOLVE_URL :: m)
  | O_server_resolve_ipv4 => flag q_ipv4 V_SERVER_RESOLVE_IPV4
  | O_w => text t_wget V_WGET_CMD
  | O_show_last => plain (set_n q_show_last 1 o)
  | O_s => plain (set_t t_ip ($ "0.0.0.0") o)
  | O_S => with_var V_SPA_SOURCE_PORT (s_number q_sport 0 MAX_PORT v o)
  | O_T => plain (set_n q_test 1 o)
  | O_u => text t_agent V_HTTP_USER_AGENT
  | O_U => text t_user V_SPOOF_USER
  | O_V => plain (set_n q_version 1 o)
  | O_gpg_recipient_key => gpg (set_t t_recipient v o) V_GPG_RECIPIENT
  | O_gpg_signer_key => gpg (set_t t_signer v o) V_GPG_SIGNER
  | O_gpg_home_dir => gpg (set_t t_gpg_home (chop_slash (fit t_gpg_home v)) o) V_GPG_HOMEDIR
  | O_gpg_exe => gpg (set_t t_gpg_exe v o) V_GPG_EXE
  | O_gpg_agent => gpg (set_n q_gpg_agent 1 o) V_USE_GPG_AGENT
  | O_gpg_no_signing_pw => gpg (set_n q_gpg_no_pw 1 o) V_GPG_NO_SIGNING_PW
  | O_nat_local => flag q_nat_local V_NAT_LOCAL
  | O_nat_rand_port => flag q_nat_rand V_NAT_RAND_PORT
  | O_nat_port => with_var V_NAT_PORT (s_number q_nat_port 0 MAX_PORT v o)
  | O_time_plus => with_var V_TIME_OFFSET (s_offset q_plus v o)
  | O_time_minus => with_var V_TIME_OFFSET (s_offset q_minus v o)
  | O_use_hmac => flag q_use_hmac V_USE_HMAC
  | O_use_wget_user_agent => flag q_wget_agent V_USE_WGET_USER_AGENT
  | O_force_stanza => plain (set_n q_force 1 o)
  | O_stdin => plain (set_n q_fd 0 o)
  | O_fd => try o <- s_number q_fd 0 (-1) v o; plain o
  | O_h | O_stanza_list | O_unknown => fail
  end.
Fixpoint all_args (f : arg -> copts * mask -> step (copts * mask)) (l : list arg) (s : copts * mask) : step (copts * mask) :=
  match l with [] => ret s | a :: r => try s <- f a s; all_args f r s end.

(** validate_options, config_init.c:1799-1942; VERSION is 2.6.11. *)
Definition is_set (o : copts) (f : qfield) : bool := negb (num o f =? 0).
Definition validate_options (o : copts) : step copts :=
  if given (txt o t_stanza) && negb (is_set o q_got) && negb (is_set o q_save) then fail
  else
    try o <- (if is_set o q_save && negb (given (txt o t_stanza)) then
                if given (txt o t_server) then ret (set_t t_stanza (txt o t_server) o) else fail
              else ret o);
    try o <- (if is_set o q_test || is_set o q_key_gen || is_set o q_version || is_set o q_show_last || is_set o q_run_last then ret o
              else if negb (given (txt o t_server)) then fail
              else let o := if is_set o q_have_url then set_n q_resolve 1 o else o in
                   if negb (is_set o q_resolve) && negb (given (txt o t_ip)) then fail else ret o);
    try o <- (if given (txt o t_ip) && negb (bseq (map tolower (ztake 7 (txt o t_ip))) ($ "resolve")) then
                if is_valid_ipv4_addr (txt o t_ip) (zlen (txt o t_ip)) then ret (set_n q_resolve 0 o) else fail
              else ret o);
    if given (txt o t_spoof_ip) &&
       negb (is_valid_ipv4_addr (txt o t_spoof_ip) (zlen (txt o t_spoof_ip)) && ((num o q_proto =? 3) || (num o q_proto =? 1) || (num o q_proto =? 4)))
    then fail
    else
      let o := if (is_set o q_resolve || (num o q_proto =? 5)) && negb (given (txt o t_agent)) then set_t t_agent ($ "Fwknop/2.6.11") o else o in
      if given (txt o t_proxy) && negb (num o q_proto =? 5) then fail
      else if is_set o q_use_gpg && negb (given (txt o t_recipient)) then fail
      else if (num o q_mode =? FKO_ENC_MODE_ASYMMETRIC) && negb (is_set o q_use_gpg) then fail
      else if (num o q_mode =? FKO_ENC_MODE_CBC_LEGACY_IV) && is_set o q_use_hmac then fail
      else ret (if (is_set o q_use_hmac || is_set o q_key_gen) && (num o q_hmac_type =? 0) then set_n q_hmac_type 3 o else o).

(** config_init, config_init.c:1970-2487, up to validate_options *)
Definition config_init (rc : option bytes) (args : list arg) : step (copts * mask) :=
  try (o, m) <- all_args first_arg args (defaults, []);
  try o <- (if is_set o q_no_rc then
              if is_set o q_save || given (txt o t_stanza) || is_set o q_list then fail else ret o
            else if num o q_list =? 1 then fail
            else try o <- process_rc_section rc ($ "default") o;
                 if is_set o q_got && negb (is_set o q_save) then process_rc_section rc (txt o t_stanza) o else ret o);
  try (o, m) <- all_args second_arg args (o, m);
  try o <- validate_options o;
  ret (o, m).

(** ** What main makes of the options (without GnuPG) *)
(** get_keys, fwknop.c:1075-1235.  [file]: contents of a file; [prompt]: what is typed *)
Definition key_source_of (file : bytes -> option bytes) (prompt : option bytes) (o : copts) : key_source :=
  if is_set o q_have_key then KText (txt o t_key)
  else if is_set o q_have_key64 then KBase64 (txt o t_key64)
  else if given (txt o t_key_file) then KFile (file (txt o t_key_file)) else KPrompt prompt.
Definition hmac_source_of (file : bytes -> option bytes) (prompt : option bytes) (o : copts) : option key_source :=
  if is_set o q_have_hmac then Some (KText (txt o t_hmac))
  else if is_set o q_have_hmac64 then Some (KBase64 (txt o t_hmac64))
  else if is_set o q_use_hmac then Some (if given (txt o t_hmac_file) then KFile (file (txt o t_hmac_file)) else KPrompt prompt)
  else None.
(** The options main uses; [ip] is the address of the client, which is that of allow_ip_str
    unless it is looked up in the network. *)
Definition to_options (file : bytes -> option bytes) (p1 p2 : option bytes) (ip : bytes) (o : copts) : options :=
  mkOptions (txt o t_server) ip (txt o t_access) (txt o t_command) (txt o t_nat) (is_set o q_nat_local) (num o q_nat_port) (is_set o q_nat_rand)
    (num o q_timeout) (num o q_plus) (num o q_minus) (txt o t_user) (num o q_mode) (num o q_digest)
    (key_source_of file p1 o) (hmac_source_of file p2 o) (num o q_hmac_type).
Definition to_protocol (z : Z) : protocol :=
  if z =? 0 then UDP else if z =? 1 then UDP_RAW else if z =? 2 then TCP else if z =? 3 then TCP_RAW else if z =? 4 then ICMP else HTTP.
Definition to_route (o : copts) : route :=
  mkRoute (to_protocol (num o q_proto)) (num o q_dport) (num o q_sport) (is_set o q_rand_port) (txt o t_spoof_ip) (txt o t_agent) (txt o t_proxy)
    (num o q_icmp_type) (num o q_icmp_code) (is_set o q_test) (given (txt o t_save_file)).

(** ** Saving a stanza *)
(** add_single_var_to_rc, config_init.c:1323-1484: the value written, None if nothing is *)
Definition yesno (z : Z) : bytes := if z =? 0 then $ "N" else $ "Y".
Definition var_text (x : var) (o : copts) : option bytes :=
  match x with
  | V_DIGEST_TYPE => Some (value_name digest_names ($ "Unknown") (num o q_digest))
  | V_SPA_SERVER_PROTO => Some (value_name protos [] (num o q_proto))
  | V_SPA_SERVER_PORT => Some (dec_i (num o q_dport))
  | V_SPA_SOURCE_PORT => Some (dec_i (num o q_sport))
  | V_FW_TIMEOUT => Some (dec_i (num o q_timeout))
  | V_ALLOW_IP => Some (txt o t_ip)
  | V_TIME_OFFSET => Some (if is_set o q_minus then "-"%byte :: dec_i (num o q_minus)
                           else if is_set o q_plus then dec_i (num o q_plus) else [])
  | V_ENCRYPTION_MODE => Some (value_name mode_names [] (num o q_mode))
  | V_USE_GPG => Some (yesno (num o q_use_gpg))
  | V_USE_GPG_AGENT => Some (yesno (num o q_gpg_agent))
  | V_GPG_RECIPIENT => Some (txt o t_recipient)
  | V_GPG_SIGNER => Some (txt o t_signer)
  | V_GPG_HOMEDIR => Some (txt o t_gpg_home)
  | V_GPG_EXE => Some (txt o t_gpg_exe)
  | V_GPG_SIGNING_PW | V_GPG_SIGNING_PW_BASE64 => None
  | V_GPG_NO_SIGNING_PW => Some (yesno (num o q_gpg_no_pw))
  | V_SPOOF_USER => Some (txt o t_user)
  | V_SPOOF_SOURCE_IP => Some (txt o t_spoof_ip)
  | V_ACCESS => Some (txt o t_access)
  | V_SPA_SERVER => Some (txt o t_server)
  | V_RAND_PORT => Some (yesno (num o q_rand_port))
  | V_KEY => Some (txt o t_key)
  | V_KEY_BASE64 => Some (txt o t_key64)
  | V_HMAC_DIGEST_TYPE => Some (value_name digest_names ($ "Unknown") (num o q_hmac_type))
  | V_HMAC_KEY_BASE64 => Some (txt o t_hmac64)
  | V_HMAC_KEY => Some (txt o t_hmac)
  | V_USE_HMAC => Some (yesno (num o q_use_hmac))
  | V_USE_WGET_USER_AGENT => Some (yesno (num o q_wget_agent))
  | V_KEY_FILE => Some (txt o t_key_file)
  | V_HMAC_KEY_FILE => Some (txt o t_hmac_file)
  | V_NAT_ACCESS => Some (txt o t_nat)
  | V_HTTP_USER_AGENT => Some (txt o t_agent)
  | V_RESOLVE_URL => Some (cut (txt o t_url))
  | V_SERVER_RESOLVE_IPV4 => Some (yesno (num o q_ipv4))
  | V_NAT_LOCAL => Some (yesno (num o q_nat_local))
  | V_NAT_RAND_PORT => Some (yesno (num o q_nat_rand))
  | V_NAT_PORT => Some (dec_i (num o q_nat_port))
  | V_VERBOSE => Some (if (num o q_verbose =? 0) || (num o q_verbose =? 1) then yesno (num o q_verbose) else dec_i (num o q_verbose))
  | V_RESOLVE_IP_HTTP | V_RESOLVE_IP_HTTPS => Some (yesno (num o q_resolve))
  | V_RESOLVE_HTTP_ONLY => Some (yesno (num o q_http_only))
  | V_WGET_CMD => Some (cut (txt o t_wget))
  | V_NO_SAVE_ARGS => Some (yesno (num o q_no_save))
  end.
(** RC_PARAM_TEMPLATE "%-24s    %s\n" *)
Definition var_line (n v : bytes) : bytes := n ++ repeat " "%byte (24 - List.length n) ++ $ "    " ++ v ++ [x0a].
Definition mem_var (x : var) (m : mask) : bool := existsb (var_beq x) m.
(** add_multiple_vars_to_rc, config_init.c:1497-1510 *)
Definition vars_text (o : copts) (m : mask) : bytes :=
  concat (map (fun '(n, x) => if mem_var x m then match var_text x o with Some v => var_line n v | None => [] end else []) var_array).
(** critical_var_array, config_init.c:190-200 *)
Definition critical (x : var) : bool :=
  match x with
  | V_KEY | V_KEY_BASE64 | V_HMAC_KEY | V_HMAC_KEY_BASE64 | V_GPG_RECIPIENT | V_GPG_SIGNER | V_GPG_SIGNING_PW | V_GPG_SIGNING_PW_BASE64 => true
  | _ => false
  end.
(** The loop of update_rc, config_init.c:1683-1757: stanza_found, stanza_updated, the variables,
    the text written.  [ask i]: the answer to the i-th question.  The second component: false
    if a malformed line ends it. *)
Record saving := mkSaving { sv_found : bool; sv_done : bool; sv_mask : mask; sv_out : bytes; sv_asked : nat }.
Definition save_line (ask : nat -> bool) (o : copts) (l : bytes) (s : saving) : saving * bool :=
  if is_empty_line (hd x00 l) then (s, true)
  else match rc_section l with
  | Some n =>
      if sv_found s
      then (mkSaving false true (sv_mask s) (sv_out s ++ vars_text o (sv_mask s) ++ [x0a] ++ l) (sv_asked s), true)
      else (mkSaving (strcaseeq n (txt o t_stanza)) (sv_done s) (sv_mask s) (sv_out s ++ l) (sv_asked s), true)
  | None =>
      if sv_found s then
        if is_set o q_force then (s, true)
        else match rc_param l with
        | None => (s, false)
        | Some (n, _) =>
            match lookup var_array n with
            | Some x =>
                if critical x then
                  if ask (sv_asked s) then (mkSaving (sv_found s) (sv_done s) (sv_mask s) (sv_out s) (S (sv_asked s)), true)
                  else (mkSaving (sv_found s) (sv_done s) (filter (fun y => negb (var_beq x y)) (sv_mask s)) (sv_out s ++ l) (S (sv_asked s)), true)
                else (s, true)
            | None => (s, true)
            end
        end
      else (mkSaving (sv_found s) (sv_done s) (sv_mask s) (sv_out s ++ l) (sv_asked s), true)
  end.
Fixpoint save_lines (ask : nat -> bool) (o : copts) (ls : list bytes) (s : saving) : saving * bool :=
  match ls with
  | [] => (s, true)
  | l :: r => let '(s, go) := save_line ask o l s in if go then save_lines ask o r s else (s, false)
  end.
(** config_init.c:1759-1779: the whole text, and whether the file is replaced *)
Definition save_text (ask : nat -> bool) (o : copts) (m : mask) (old : bytes) : bytes * bool :=
  let '(s, go) := save_lines ask o (file_lines old) (mkSaving false false m [] 0) in
  (if go && negb (sv_done s)
   then sv_out s ++ (if sv_found s then [] else [x0a] ++ $ "[" ++ txt o t_stanza ++ $ "]" ++ [x0a]) ++ vars_text o (sv_mask s)
   else sv_out s, go).

(** update_rc, config_init.c:1626-1796, as the states of the rc file and of the file with
    ".updated" behind its name, after every step; what is written arrives in pieces. *)
Record rcfiles := mkRcFiles { rf_rc : option bytes; rf_upd : option bytes }.
Definition update_rc (ask : nat -> bool) (o : copts) (m : mask) (f : rcfiles) : list rcfiles :=
  match rf_upd f with
  | Some _ => [f]
  | None =>
      match rf_rc f with
      | None => [f; mkRcFiles None (Some [])]
      | Some old =>
          let '(new, go) := save_text ask o m old in
          f :: map (fun k => mkRcFiles (Some old) (Some (firstn k new))) (seq 0 (S (List.length new)))
          ++ (if go then [mkRcFiles None (Some new); mkRcFiles (Some new) None] else [])
      end
  end.

(** ** Saved arguments *)
(** save_args, fwknop.c:1003-1036: the contents of the file; None: the program ends and the file
    is empty.  strlcat cuts at 1023 characters. *)
Fixpoint args_text (l : list bytes) (len : Z) (t : bytes) : option bytes :=
  match l with
  | [] => Some (cut (t ++ [x0a]))
  | a :: r => if 1024 <=? len + zlen a then None else args_text r (len + zlen a) (cut (cut (t ++ a) ++ $ " "))
  end.
Definition save_args (argv : list bytes) : option bytes := args_text argv 0 [].
