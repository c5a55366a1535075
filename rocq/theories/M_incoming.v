(** Model of server/incoming_spa.c: what the daemon does with one received packet.
    Not modelled: log messages, the debug dumps, memory allocation failures, and what the
    commands and the firewall do; one clock value is used for the whole packet. *)
From Verif Require Import Bytes M_base64 M_util M_message M_codec M_cipher M_ctx M_access M_replay M_cycle.
From Coq Require Import Init.Byte List ZArith Bool.
Import ListNotations.
Open Scope Z_scope.

Definition MAX_SPA_PACKET_LEN : Z := 1500.     (* server/fwknopd_common.h:227 *)
Definition MIN_SPA_DATA_SIZE : Z := 140.       (* server/fwknopd_common.h:232 *)
Definition MAX_SPA_CMD_LEN : Z := 1400.        (* lib/fko_limits.h:40 *)
Definition MAX_DECRYPTED_SPA_LEN : Z := 1024.  (* server/fwknopd_common.h:228 *)
Definition DEF_FW_ACCESS_TIMEOUT : Z := 30.    (* server/fwknopd_common.h:135 *)

(** ** Configuration *)

(** The options of fwknopd.conf and of the command line that incoming_spa.c looks at. *)
Record conf := mkConf {
  cf_digest_persistence : bytes; cf_http : bytes; cf_any_user_agent : bytes; cf_xff : bytes;
  cf_aging : bytes; cf_max_age : Z; cf_forwarding : bytes; cf_local_nat : bytes;
  cf_sudo_exe : bytes; cf_test : bool }.
(** strncasecmp(s, "Y", 1) == 0 and strncasecmp(s, "N", 1) == 0 *)
Definition yes (s : bytes) : bool := match s with c :: _ => beq (tolower c) "y"%byte | [] => false end.
Definition no (s : bytes) : bool := match s with c :: _ => beq (tolower c) "n"%byte | [] => false end.
(** strncasecmp(s, "root", 4) == 0 *)
Definition is_root (s : bytes) : bool := bseq (map tolower (ztake 4 s)) ($ "root").

(** The NAT settings of a stanza. *)
Record nat_conf := mkNat {
  n_force : bool; n_force_ip : bytes; n_force_port : Z; n_forward_all : bool; n_no_dnat : bool;
  n_snat : bool; n_snat_ip : bytes; n_masq : bool }.

(** acc_stanza_t, server/fwknopd_common.h:389-455.  Pointers that may be NULL are options.
    [a_gpg_pw]: gpg_decrypt_pw != NULL || gpg_allow_no_pw.  [a_gpg_fprs] and [a_gpg_ids]: the
    lists, None if the setting is absent.  [a_cycle]: the command cycle settings if
    cmd_cycle_open is set. *)
Record stanza := mkStanza {
  a_source : list net; a_dest : option (list net); a_expire : Z; a_expired : bool;
  a_rijndael : bool; a_key : option bytes; a_mode : Z; a_hmac_key : option bytes; a_hmac_type : Z;
  a_gpg : bool; a_gpg_pw : bool; a_gpg_require_sig : bool; a_gpg_ignore_sig_error : bool;
  a_gpg_fprs : option (list bytes); a_gpg_ids : option (list bytes);
  a_require_src : bool; a_require_user : option bytes;
  a_cmd : bool; a_sudo : bool; a_sudo_user : option bytes; a_sudo_group : option bytes;
  a_cmd_user : option bytes; a_cmd_group : option bytes; a_uid : Z; a_gid : Z;
  a_cycle : option cycle_conf;
  a_open : list (Z * Z); a_restrict : list (Z * Z);
  a_fw_timeout : Z; a_max_timeout : Z; a_nat : nat_conf }.
Definition expire_stanza (a : stanza) : stanza :=
  mkStanza (a_source a) (a_dest a) (a_expire a) true (a_rijndael a) (a_key a) (a_mode a) (a_hmac_key a) (a_hmac_type a)
    (a_gpg a) (a_gpg_pw a) (a_gpg_require_sig a) (a_gpg_ignore_sig_error a) (a_gpg_fprs a) (a_gpg_ids a)
    (a_require_src a) (a_require_user a) (a_cmd a) (a_sudo a) (a_sudo_user a) (a_sudo_group a)
    (a_cmd_user a) (a_cmd_group a) (a_uid a) (a_gid a) (a_cycle a) (a_open a) (a_restrict a)
    (a_fw_timeout a) (a_max_timeout a) (a_nat a).

(** ** The packet *)

(** spa_pkt_info_t: the array packet_data[MAX_SPA_PACKET_LEN+1], packet_data_len and the
    addresses (in host byte order). *)
Record packet := mkPacket { k_buf : bytes; k_len : Z; k_info : pkt_info }.

(** strstr (and strcasestr, with [f] applied to the characters): the rest of [s] from the
    first place where [n] occurs. *)
Fixpoint strstr (f : byte -> byte) (n s : bytes) : option bytes :=
  if is_prefix n (map f s) then Some s
  else match s with [] => None | _ :: r => strstr f n r end.

(** The loop of incoming_spa.c:119-123 and line 125, at position [pos] of the array: the
    number of iterations [i], the array with the NUL byte stored and the position of [xff]
    after line 125.  [n] counts the characters passed. *)
Fixpoint xff_scan (s : bytes) (n : Z) : option (Z * bool) :=
  match s with
  | [] => None
  | c :: r => if beq c x00 then Some (n, false) else if isspace c then Some (n, true) else xff_scan r (n + 1)
  end.
Definition store (buf : bytes) (i : Z) (c : byte) : bytes := ztake i buf ++ [c] ++ zdrop (i + 1) buf.
(** incoming_spa.c:112-133, given the position after the header name: the array and the
    text stored in pkt_source_xff_ip, an array of MAX_IPV4_STR_LEN bytes. *)
Definition xff_header (buf : bytes) (pos : Z) : outcome (bytes * bytes) :=
  match xff_scan (zdrop pos buf) 0 with
  | None => Fault
  | Some (n, sp) =>
      let i := if sp then n + 1 else n in
      let buf1 := if sp then store buf (pos + n) x00 else buf in
      let start := pos + n - (i - 1) in
      if negb (memb x00 (zdrop start buf1)) then Fault
      else let v := cstr (zdrop start buf1) in
           if negb (is_valid_ipv4_addr v (zlen v)) then Ok (buf1, [])
           else if MAX_IPV4_STR_LEN <? Z.min (zlen v + 1) i then Fault
           else Ok (buf1, ztake (Z.max 0 (i - 1)) v)
  end.

(** The loop of incoming_spa.c:141-154 over the first [n] bytes of the array: the bytes and
    the index [i] at which it was left. *)
Fixpoint http_loop (n : nat) (s : bytes) (i : Z) : bytes * Z :=
  match n, s with
  | O, _ => (s, i)
  | S _, [] => ([], i)
  | S n', c :: r =>
      if isspace c then (x00 :: r, i)
      else let c' := if beq c "-"%byte then "+"%byte else if beq c "_"%byte then "/"%byte else c in
           let '(r', j) := http_loop n' r (i + 1) in (c' :: r', j)
  end.

(** preprocess_spa_data, incoming_spa.c:52-175: the SPA data (a C string) and the text of
    pkt_source_xff_ip, or None if the packet is dropped. *)
Definition preprocess (cf : conf) (p : packet) : outcome (option (bytes * bytes)) :=
  let buf := k_buf p in
  let len := k_len p in
  if len <? MIN_SPA_DATA_SIZE then Ok None
  else if len >? MAX_SPA_PACKET_LEN then Ok None
  else match constant_runtime_cmp buf B64_RIJNDAEL_SALT (zlen B64_RIJNDAEL_SALT) with
  | None => Fault
  | Some v =>
  if v =? 0 then Ok None
  else match (if len >? MIN_GNUPG_MSG_SIZE then constant_runtime_cmp buf B64_GPG_PREFIX (zlen B64_GPG_PREFIX) else Some 1) with
  | None => Fault
  | Some v =>
  if v =? 0 then Ok None
  else if yes (cf_http cf) && bseq (map tolower (ztake 5 (cstr buf))) ($ "get /") then
    let t := cstr buf in
    if no (cf_any_user_agent cf) && (match strstr (fun c => c) ($ "User-Agent: Fwknop") t with None => true | Some _ => false end)
    then Ok None
    else match (match strstr tolower ($ "x-forwarded-for: ") t with
                | Some r => if yes (cf_xff cf) then xff_header buf (zlen t - zlen r + 17) else Ok (buf, [])
                | None => Ok (buf, [])
                end) with
    | Fault => Fault
    | Ok (buf1, fwd) =>
        let buf2 := fst (strlcpy buf1 (cstr (zdrop 5 buf1)) len) in
        let '(buf3, i) := http_loop (Z.to_nat (len - 5)) buf2 0 in
        if i <? MIN_SPA_DATA_SIZE then Ok None
        else if negb (is_base64 buf3 i) then Ok None
        else Ok (Some (cstr buf3, fwd))
    end
  else if negb (is_base64 buf len) then Ok None
  else Ok (Some (cstr buf, []))
  end end.

(** get_raw_digest, incoming_spa.c:178-262 *)
Definition get_raw_digest (H : hashes) (data : bytes) : outcome (option bytes) :=
  match fko_new_with_data H (Some data) None FKO_ENC_MODE_CBC None 0 with
  | Fault => Fault
  | Ok (FKO_SUCCESS, Live c) =>
      let '(e, c) := set_raw_digest_type FKO_DEFAULT_DIGEST c in
      if negb (ok e) then Ok None
      else if negb (c_raw_type c =? FKO_DEFAULT_DIGEST) then Ok None
      else let '(e, c) := set_raw_spa_digest H c in
           if negb (ok e) then Ok None else Ok (c_raw c)
  | Ok _ => Ok None
  end.

(** ** GnuPG *)

(** A signature as reported by gpgme: fingerprint, status == GPG_ERR_NO_ERROR, validity. *)
Record gpg_sig := mkSig { sg_fpr : option bytes; sg_good : bool; sg_validity : Z }.
(** The GnuPG installation: whether the program and key ring of a stanza are accepted, and
    the plaintext and signatures obtained from a cipher text with the key ring and password
    of a stanza (gpgme_op_decrypt_verify). *)
Record gpg := mkGpg { g_params : stanza -> bool; g_open : stanza -> bytes -> option (bytes * list gpg_sig) }.

(** lib/gpgme_funcs.c:415-541 [gpgme_decrypt] and 109-176 [process_sigs]; the signature kept
    in the context is the first one. *)
Definition gpgme_decrypt (G : gpg) (a : stanza) (cipher : bytes) : option (bytes * option gpg_sig) :=
  match g_open G a cipher with
  | None => None
  | Some (pt, sigs) =>
      if a_gpg_require_sig a then
        match sigs with
        | [] => None
        | s :: _ => if a_gpg_ignore_sig_error a then Some (pt, Some s)
                    else if negb (sg_good s) || (sg_validity s <? 3) then None
                    else Some (pt, Some s)
        end
      else Some (pt, None)
  end.

(** lib/fko_encryption.c:639-675 [fko_decrypt_spa_data] with a key length of 0 in a build
    with gpgme, and 416-493 [gpg_decrypt]. *)
Definition gpg_decrypt_spa_data (H : hashes) (G : gpg) (a : stanza) (c : ctx) : outcome (err * ctx * option gpg_sig) :=
  let t := encryption_type (c_crypt c) in
  if (t =? FKO_ENCRYPTION_GPG) && (c_mode c =? FKO_ENC_MODE_ASYMMETRIC) then
    let c := set_c_etype FKO_ENCRYPTION_GPG c in
    match (if c_gpg c then Ok (FKO_SUCCESS, c) else add_gpg_prefix c) with
    | Fault => Fault
    | Ok (_, c) =>
        match c_crypt c with
        | None => Fault
        | Some t =>
            match b64_decode t with
            | None => Ok (FKO_ERROR_INVALID_DATA, c, None)
            | Some cipher =>
                match gpgme_decrypt G a cipher with
                | None => Ok (FKO_ERROR_DECRYPTION_FAILURE, c, None)
                | Some (pt, sg) =>
                    let n := strnlen (cstr pt) MAX_SPA_ENCODED_MSG_SIZE in
                    if negb (is_valid_encoded_msg_len n) then Ok (FKO_ERROR_INVALID_DATA, set_c_enc (Some pt) c, sg)
                    else match decode_spa_data H (set_c_enc_len n (set_c_enc (Some pt) c)) with
                         | Fault => Fault
                         | Ok (e, c) => Ok (e, c, sg)
                         end
                end
            end
        end
    end
  else match decrypt_spa_data H [] c with
       | Fault => Fault
       | Ok (e, c) => Ok (e, c, None)
       end.

(** ** One stanza *)

(** src_dst_check, incoming_spa.c:433-447 *)
Definition src_dst_check (a : stanza) (p : pkt_info) : bool :=
  compare_addr_list (a_source a) (p_src p) &&
  match a_dest a with None => true | Some l => compare_addr_list l (p_dst p) end.

(** check_stanza_expiration, incoming_spa.c:329-351 *)
Definition check_stanza_expiration (now : Z) (a : stanza) : bool * stanza :=
  if a_expire a >? 0 then
    if a_expired a then (false, a)
    else if now >? a_expire a then (false, expire_stanza a) else (true, a)
  else (true, a).

(** handle_rijndael_enc, handle_gpg_enc and check_mode_ctx, incoming_spa.c:586-602, 604-689,
    548-584, called from 1007-1031: the context, if the packet authenticates and decrypts. *)
Definition decrypt_packet (H : hashes) (G : gpg) (a : stanza) (data : bytes) : outcome (option (ctx * option gpg_sig)) :=
  let enc_type := encryption_type (Some data) in
  match (if a_rijndael a && ((enc_type =? FKO_ENCRYPTION_RIJNDAEL) || a_cmd a)
         then match fko_new_with_data H (Some data) (a_key a) (a_mode a) (a_hmac_key a) (a_hmac_type a) with
              | Fault => Fault
              | Ok (e, h) => Ok (Some (e, h))
              end
         else Ok None) with
  | Fault => Fault
  | Ok rij =>
      match rij with
      | Some (FKO_SUCCESS, Live c) => Ok (Some (c, None))
      | _ =>
          if a_gpg a && (enc_type =? FKO_ENCRYPTION_GPG) && a_gpg_pw a then
            match fko_new_with_data H (Some data) None FKO_ENC_MODE_ASYMMETRIC (a_hmac_key a) (a_hmac_type a) with
            | Fault => Fault
            | Ok (FKO_SUCCESS, Live c) =>
                if negb (g_params G a) then Ok None
                else match gpg_decrypt_spa_data H G a c with
                     | Fault => Fault
                     | Ok (FKO_SUCCESS, c, sg) => Ok (Some (c, sg))
                     | Ok _ => Ok None
                     end
            | Ok _ => Ok None
            end
          else Ok None
      end
  end.

(** handle_gpg_sigs, incoming_spa.c:691-782, with fko_get_gpg_signature_id/_fpr and
    fko_gpg_signature_fpr_match/_id_match (lib/fko_encryption.c:1008-1210). *)
Definition handle_gpg_sigs (a : stanza) (enc_type : Z) (c : ctx) (sg : option gpg_sig) : outcome bool :=
  if (enc_type =? FKO_ENCRYPTION_GPG) && a_gpg_require_sig a then
    if negb (c_etype c =? FKO_ENCRYPTION_GPG) then Ok false
    else match sg with
    | None => Ok false
    | Some s =>
        match sg_fpr s with
        | None => Fault
        | Some fpr =>
            if zlen fpr <? 8 then Fault
            else Ok ((match a_gpg_fprs a with None => true | Some l => existsb (fun x => bseq x fpr) l end) &&
                     (match a_gpg_ids a with None => true | Some l => existsb (fun x => bseq x (zdrop (zlen fpr - 8) fpr)) l end))
        end
    end
  else Ok true.

(** set_timeout, incoming_spa.c:888-908; the client's timeout is unsigned. *)
Definition set_timeout (a : stanza) (client : Z) : Z :=
  if client >? 0 then if u32 (a_max_timeout a) <? client then u32 (a_max_timeout a) else client
  else if a_fw_timeout a >? 0 then a_fw_timeout a else DEF_FW_ACCESS_TIMEOUT.

(** check_pkt_age, incoming_spa.c:306-327: ts_diff is an int. *)
Definition check_pkt_age (cf : conf) (now ts : Z) : bool :=
  if yes (cf_aging cf) then negb (i32 (Z.abs (now - ts)) >? cf_max_age cf) else true.

(** check_src_access, incoming_spa.c:784-807: the address to use *)
Definition check_src_access (a : stanza) (src fwd pkt_src : bytes) : option bytes :=
  if bseq src ($ "0.0.0.0") then
    if a_require_src a then None
    else Some (match fwd with [] => pkt_src | _ => fwd end)
  else Some src.

(** check_username, incoming_spa.c:809-824 *)
Definition check_username (a : stanza) (user : bytes) : bool :=
  match a_require_user a with None => true | Some u => bseq user u end.

(** check_nat_access_types, incoming_spa.c:826-864, FIREWALL_IPTABLES *)
Definition check_nat_access_types (cf : conf) (t : Z) : bool :=
  if (t =? 2) || (t =? 4) then yes (cf_forwarding cf)
  else if (t =? 5) || (t =? 6) then yes (cf_local_nat cf)
  else true.

(** Lines 1064-1156 of incoming_spa: [Refuse] continues with the next stanza, [Abort] leaves
    the loop.  A field that the message did not set would be a NULL pointer: Fault. *)
Inductive check := Refuse | Abort | Pass (d : spa_data).
Definition checks (cf : conf) (now : Z) (p : pkt_info) (fwd : bytes) (a : stanza) (c : ctx) : outcome check :=
  match c_user c, c_msg c, c_version c with
  | Some user, Some msg, Some version =>
      let client := u32 (c_timeout c) in
      let timeout := set_timeout a client in
      if negb (check_pkt_age cf now (c_time c)) then Ok Refuse
      else match strchr ","%byte msg with
      | None => Ok Refuse
      | Some rest =>
          let demark := zlen msg - zlen rest in
          if (demark <? MIN_IPV4_STR_LEN - 1) || (demark >? MAX_IPV4_STR_LEN) then Ok Abort
          else if demark + 1 >? MAX_IPV4_STR_LEN then Fault
          else
            let src := ztake demark msg in
            if negb (is_valid_ipv4_addr src (zlen src)) then Ok Abort
            else
              let remain := ztake (MAX_DECRYPTED_SPA_LEN - 1) (zdrop 1 rest) in
              match check_src_access a src fwd (inet_ntop (p_src p)) with
              | None => Ok Refuse
              | Some use =>
                  if negb (check_username a user) then Ok Refuse
                  else if negb (check_nat_access_types cf (c_type c)) then Ok Refuse
                  else Ok (Pass (M_cycle.mkSpa user (c_time c) version (c_type c) msg src (inet_ntop (p_src p)) fwd
                                   (inet_ntop (p_dst p)) remain (c_nat c) (c_auth c) client timeout use))
              end
      end
  | _, _, _ => Fault
  end.

(** ** Actions *)

(** What the processing of a packet does, with the number of the stanza: a firewall request
    (process_spa_request), a command with the user and group ids to run it with (None: those
    of the daemon), the opening command of a command cycle. *)
Inductive effect :=
| Grant (k : Z) (d : spa_data)
| Command (k : Z) (cmd : bytes) (who : option (Z * Z))
| CycleOpen (k : Z) (cmd : bytes).

(** strlcpy and strlcat into a buffer of MAX_SPA_CMD_LEN bytes *)
Definition cat1400 (b s : bytes) : bytes := ztake (MAX_SPA_CMD_LEN - 1) (b ++ s).
(** process_cmd_msg, incoming_spa.c:451-546.  Line 495 tests cmd_exec_group but uses
    cmd_sudo_exec_group, which may be NULL. *)
Definition process_cmd_msg (cf : conf) (a : stanza) (k : Z) (d : spa_data) : outcome (option effect) :=
  if negb (a_cmd a) then Ok None
  else if cf_test cf then Ok None
  else
    match (if a_sudo a then
             let b := cat1400 [] (cf_sudo_exe cf) in
             let b := match a_sudo_user a with
                      | Some u => if is_root u then b else cat1400 (cat1400 b ($ " -u ")) u
                      | None => b
                      end in
             match (match a_cmd_group a with
                    | None => Ok b
                    | Some _ => match a_sudo_group a with
                                | None => Fault
                                | Some g => if is_root g then Ok b else Ok (cat1400 (cat1400 b ($ " -g ")) g)
                                end
                    end) with
             | Fault => Fault
             | Ok b => Ok (cat1400 (cat1400 b ($ " ")) (d_remain d))
             end
           else Ok (cat1400 [] (d_remain d))) with
    | Fault => Fault
    | Ok cmd =>
        Ok (Some (Command k cmd (match a_cmd_user a with
                                 | Some u => if is_root u then None else Some (a_uid a, a_gid a)
                                 | None => None
                                 end)))
    end.

(** The state of the daemon. *)
Record sstate := mkSt { st_acc : list stanza; st_replay : cache * file; st_cycles : list cycle }.
(** Clock, and whether the digest file can be opened for appending. *)
Record env := mkEnv { e_now : Z; e_writable : bool }.

Inductive flow := Next | Break.
(** incoming_spa.c:1158-1230 *)
Definition act (cf : conf) (now : Z) (a : stanza) (k : Z) (d : spa_data) (cy : list cycle)
  : outcome (flow * list effect * list cycle) :=
  match a_cycle a with
  | Some cc =>
      match cmd_cycle_open cc d k now cy with
      | Fault => Fault
      | Ok (done, ran, cy') => Ok (if done then Break else Next, map (CycleOpen k) ran, cy')
      end
  | None =>
      if d_type d =? FKO_COMMAND_MSG then
        match process_cmd_msg cf a k d with
        | Fault => Fault
        | Ok None => Ok (Next, [], cy)
        | Ok (Some e) => Ok (Break, [e], cy)
        end
      else if negb (acc_check_port_access (a_open a) (a_restrict a) (d_remain d)) then Ok (Next, [], cy)
      else if cf_test cf then Ok (Next, [], cy)
      else Ok (Break, [Grant k d], cy)
  end.

(** The loop of incoming_spa, incoming_spa.c:967-1230, over the stanzas from number [k] on.
    [raw]: the digest of the packet, if digests are tracked; [added]: added_replay_digest. *)
Fixpoint stanza_loop (H : hashes) (G : gpg) (cf : conf) (en : env) (p : pkt_info) (data fwd : bytes) (raw : option bytes)
  (l : list stanza) (k : Z) (added : bool) (rp : cache * file) (cy : list cycle)
  : outcome (list effect * list stanza * (cache * file) * list cycle) :=
  match l with
  | [] => Ok ([], [], rp, cy)
  | a :: r =>
      let next (a' : stanza) (added : bool) rp cy eff :=
        match stanza_loop H G cf en p data fwd raw r (k + 1) added rp cy with
        | Fault => Fault
        | Ok (eff', r', rp', cy') => Ok (eff ++ eff', a' :: r', rp', cy')
        end in
      if negb (src_dst_check a p) then next a added rp cy []
      else
        let '(live, a) := check_stanza_expiration (e_now en) a in
        if negb live then next a added rp cy []
        else match decrypt_packet H G a data with
        | Fault => Fault
        | Ok None => next a added rp cy []
        | Ok (Some (c, sg)) =>
            (* add_replay_cache, 866-886 *)
            let '(okd, added, rp) :=
              match raw with
              | Some dg => if negb (cf_test cf) && negb added
                           then let '(r, rp') := add_replay (e_writable en) dg p (e_now en) rp in (r, r, rp')
                           else (true, added, rp)
              | None => (true, added, rp)
              end in
            if negb okd then next a added rp cy []
            else match handle_gpg_sigs a (encryption_type (Some data)) c sg with
            | Fault => Fault
            | Ok false => next a added rp cy []
            | Ok true =>
                match checks cf (e_now en) p fwd a c with
                | Fault => Fault
                | Ok Refuse => next a added rp cy []
                | Ok Abort => Ok ([], a :: r, rp, cy)
                | Ok (Pass d) =>
                    match act cf (e_now en) a k d cy with
                    | Fault => Fault
                    | Ok (Break, eff, cy) => Ok (eff, a :: r, rp, cy)
                    | Ok (Next, eff, cy) => next a added rp cy eff
                    end
                end
            end
        end
  end.

(** incoming_spa, incoming_spa.c:926-1247, with precheck_pkt 405-431, src_check 369-403 and
    is_src_match 356-367. *)
Definition incoming_spa (H : hashes) (G : gpg) (cf : conf) (en : env) (p : packet) (st : sstate)
  : outcome (list effect * sstate) :=
  match preprocess cf p with
  | Fault => Fault
  | Ok None => Ok ([], st)
  | Ok (Some (data, fwd)) =>
      if negb (existsb (fun a => compare_addr_list (a_source a) (p_src (k_info p))) (st_acc st)) then Ok ([], st)
      else
        match (if yes (cf_digest_persistence cf) then
                 match get_raw_digest H data with
                 | Fault => Fault
                 | Ok None => Ok None
                 | Ok (Some dg) =>
                     match is_replay (fst (st_replay st)) dg with
                     | Fault => Fault
                     | Ok true => Ok None
                     | Ok false => Ok (Some (Some dg))
                     end
                 end
               else Ok (Some None)) with
        | Fault => Fault
        | Ok None => Ok ([], st)
        | Ok (Some raw) =>
            match stanza_loop H G cf en (k_info p) data fwd raw (st_acc st) 1 false (st_replay st) (st_cycles st) with
            | Fault => Fault
            | Ok (eff, acc', rp', cy') => Ok (eff, mkSt acc' rp' cy')
            end
        end
  end.
