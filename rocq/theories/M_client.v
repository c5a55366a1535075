(** Model of the fwknop client: client/fwknop.c (building and sealing the packet) and
    client/getpasswd.c (keys from the terminal or a file).  What is done with the packet is
    in M_send.v.
    Not modelled: the parsing of the command line (the record [options] is its result), the
    GnuPG mode, --version, the saved command line, the output, the resolution of the own
    address through a web server (its result is in [o_ip]), and the clean-up at the end. *)
From Verif Require Import Bytes M_base64 M_util M_message M_codec M_cipher M_ctx M_accfile.
From Coq Require Import Init.Byte List ZArith Bool.
Import ListNotations.
Open Scope Z_scope.

Definition MAX_KEY_LEN : Z := 128.          (* lib/fko_limits.h or client/fwknop_common.h, as all these *)
Definition MAX_PORT : Z := 65535.
Definition MIN_HIGH_PORT : Z := 10000.
Definition MAX_PORT_STR_LEN : Z := 5.
Definition LINE_LEN : Z := 1024.            (* MAX_LINE_LEN *)
Definition PW_BUFSIZE : Z := 128.

(** Where a key comes from: given as text, given in base64, from a file (None: it cannot be
    opened), from the terminal or a descriptor (the bytes that can be read; None: it cannot
    be opened). *)
Inductive key_source :=
| KText (k : bytes) | KBase64 (t : bytes) | KFile (f : option bytes) | KPrompt (s : option bytes).

(** fko_cli_options_t, client/fwknop_common.h:75-195, the members used here.  Texts are C
    strings, empty if not set. *)
Record options := mkOptions {
  o_server : bytes;           (* spa_server_str[50] *)
  o_ip : bytes;               (* allow_ip_str[16] *)
  o_access : bytes;           (* access_str[1024] *)
  o_command : bytes;          (* server_command[1024] *)
  o_nat_access : bytes;       (* nat_access_str[1024] *)
  o_nat_local : bool;
  o_nat_port : Z;
  o_nat_rand : bool;
  o_timeout : Z;              (* fw_timeout, negative if not set *)
  o_plus : Z; o_minus : Z;    (* time_offset_plus, time_offset_minus *)
  o_user : bytes;             (* spoof_user[30] *)
  o_mode : Z; o_digest : Z;   (* encryption_mode, digest_type; 0 if not set *)
  o_key : key_source;
  o_hmac : option key_source; (* None if use_hmac is not set *)
  o_hmac_type : Z }.

(** The answers of the system: the random values ([v_rand i]: those of the i-th call of
    fko_set_rand_value without a value, and whether a seed could be read), the login name,
    the clock (one value for the run) and the salt. *)
Record world := mkWorld { v_seed : nat -> bool; v_rand : nat -> nat -> Z; v_login : login; v_now : Z; v_salt : bytes }.

(** Steps that may end the program: Ok None is clean_exit with EXIT_FAILURE. *)
Definition step (A : Type) : Type := outcome (option A).
Definition sbind {A B} (a : step A) (f : A -> step B) : step B :=
  match a with Ok (Some x) => f x | Ok None => Ok None | Fault => Fault end.
Notation "'try' x <- a ; b" := (sbind a (fun x => b)) (at level 200, x pattern, a at level 100, b at level 200).
Definition ret {A} (x : A) : step A := Ok (Some x).
Definition fail {A} : step A := Ok None.
(** A call of the library whose error ends the program. *)
Definition must (H : hashes) (k : call) (h : handle) : step handle :=
  match run_call H k h with
  | Fault => Fault
  | Ok (e, h') => if ok e then ret h' else fail
  end.
Definition must_if (H : hashes) (b : bool) (k : call) (h : handle) : step handle := if b then must H k h else ret h.
Definition given (s : bytes) : bool := match s with [] => false | _ => true end.

(** get_rand_port, fwknop.c:618-661; [i] is the number of the random value generated. *)
Definition get_rand_port (H : hashes) (v : world) (i : nat) (h : handle) : outcome (option Z * handle) :=
  match fko_get_rand_value h with
  | Fault => Fault
  | Ok (FKO_SUCCESS, Some (Some r)) =>
      let '(n, e) := strtol_wrapper (ztake MAX_PORT_STR_LEN r) 0 (-1) in
      if negb (strtol_ok e) then Ok (None, h)
      else match run_call H (CGenRand (v_seed v i) (v_rand v i)) h with
           | Fault => Fault
           | Ok (e, h') => Ok (if ok e then Some (MIN_HIGH_PORT + Z.rem n (MAX_PORT - MIN_HIGH_PORT)) else None, h')
           end
  | Ok (FKO_SUCCESS, _) => Fault
  | Ok _ => Ok (None, h)
  end.

(** set_access_buf, fwknop.c:665-727, with an access string: the text in access_buf[1024],
    for NAT port [port].  strlcat is called with the length that is needed, not with the size
    of the array.  snprintf cuts at 1023 characters. *)
Definition cut (s : bytes) : bytes := ztake (LINE_LEN - 1) s.
Definition access_buf (o : options) (port : Z) : step bytes :=
  if (0 <? port) && (port <=? MAX_PORT) then
    match strchr "/"%byte (o_access o) with
    | None => fail
    | Some rest =>
        let ndx := zlen (o_access o) - zlen rest in
        let t := cut (o_ip o ++ $ ",") ++ ztake (ndx + 1) (o_access o) in
        if zlen t + 1 >? LINE_LEN then Fault
        else if (match strchr "/"%byte (zdrop 1 rest) with Some _ => true | None => false end) then fail
        else let t := t ++ ztake MAX_PORT_STR_LEN (dec port) in
             if zlen t + 1 >? LINE_LEN then Fault else ret t
    end
  else ret (cut (o_ip o ++ $ "," ++ o_access o)).
(** fwknop.c:671-679 and 719-724: a failure to get a random port makes nat_port -1, which is
    not used. *)
Definition set_access_buf (H : hashes) (v : world) (o : options) (h : handle) : step (bytes * handle) :=
  if given (o_access o) then
    if o_nat_rand o then
      match get_rand_port H v 1 h with
      | Fault => Fault
      | Ok (p, h') => try t <- access_buf o (match p with Some n => n | None => -1 end); ret (t, h')
      end
    else try t <- access_buf o (o_nat_port o); ret (t, h)
  else ret (cut (o_ip o ++ $ ",none/0"), h).

(** set_nat_access, fwknop.c:731-838: the text given to the library (NAT_ACCESS_STR_TEMPLATE
    is "%s,%d"). *)
Fixpoint leading_digits (n : nat) (s : bytes) : bytes :=
  match n, s with
  | S k, c :: r => if isdigit c then c :: leading_digits k r else []
  | _, _ => []
  end.
Definition nat_text (o : options) : step bytes :=
  match strchr "/"%byte (o_access o) with
  | None => fail
  | Some rest =>
      let '(port, e) := strtol_wrapper (leading_digits (Z.to_nat MAX_PORT_STR_LEN) (zdrop 1 rest)) 1 MAX_PORT in
      if negb (strtol_ok e) then fail
      else if o_nat_local o && negb (given (o_nat_access o)) then ret (cut (o_server o ++ $ "," ++ dec port))
      else
        (* line 778: the first ':' becomes a ',' *)
        let t := match strchr ":"%byte (o_nat_access o) with
                 | None => o_nat_access o
                 | Some r => ztake (zlen (o_nat_access o) - zlen r) (o_nat_access o) ++ ","%byte :: zdrop 1 r
                 end in
        try (host, port) <-
          match strchr ","%byte t with
          | None => ret (t, port)
          | Some r =>
              let ds := zdrop 1 r in
              if negb (forallb isdigit ds) || (zlen ds >? MAX_PORT_STR_LEN + 1) then fail
              else let '(port, e) := strtol_wrapper ds 1 MAX_PORT in
                   if negb (strtol_ok e) then fail else ret (ztake (zlen t - zlen r) t, port)
          end;
        if (port <? 1) || (port >? 65535) then fail
        else if is_valid_ipv4_addr host (zlen host) then ret (cut (host ++ $ "," ++ dec port))
        else match is_valid_hostname host (zlen host) with
             | Fault => Fault
             | Ok true => ret (cut (host ++ $ "," ++ dec port))
             | Ok false => fail
             end
  end.

(** set_message_type, fwknop.c:1036-1071 *)
Definition message_type (o : options) : Z :=
  if given (o_command o) then FKO_COMMAND_MSG
  else if o_nat_local o then
    if o_timeout o >=? 0 then FKO_CLIENT_TIMEOUT_LOCAL_NAT_ACCESS_MSG else FKO_LOCAL_NAT_ACCESS_MSG
  else if given (o_nat_access o) then
    if o_timeout o >=? 0 then FKO_CLIENT_TIMEOUT_NAT_ACCESS_MSG else FKO_NAT_ACCESS_MSG
  else if o_timeout o >=? 0 then FKO_CLIENT_TIMEOUT_ACCESS_MSG else FKO_ACCESS_MSG.

(** ** Keys *)

(** read_passwd_from_stream, getpasswd.c:61-111: [acc] are the characters up to ptr, the last
    one first.  The password array keeps its contents from call to call, but a NUL is stored
    at ptr at the end. *)
Fixpoint read_password (s : bytes) (acc : bytes) : bytes :=
  match s with
  | [] => rev acc
  | c :: r =>
      if bv c =? 10 then rev acc
      else if bv c =? 3 then []
      else if bv c =? 8 then read_password r (tl acc)
      else if bv c =? 21 then read_password r []
      else if zlen acc <? PW_BUFSIZE - 1 then read_password r (c :: acc)
      else read_password r acc
  end.

(** get_key_file, getpasswd.c:195-265.  One line: None if it is not for the server, or the
    text after the name.  The comparison with the name goes on behind the end of a shorter
    line: Fault if it leaves the array. *)
Fixpoint skip_sep (s : bytes) : bytes :=
  match s with
  | c :: r => if beq c " "%byte || beq c x09 || beq c "="%byte then skip_sep r else s
  | [] => []
  end.
Definition up_to_nl (s : bytes) : bytes := match strchr x0a s with Some r => ztake (zlen s - zlen r) s | None => s end.
Definition key_line (server line : bytes) : outcome (option bytes) :=
  let l := skip_sep line in
  match l with
  | [] => Ok None
  | c :: _ =>
      if memb c ($ "#;") || beq c x0a || beq c x0d then Ok None
      else if (zlen line - zlen l) + zlen server >? LINE_LEN then Fault
      else if negb (is_prefix server l) then Ok None
      else match zdrop (zlen server) l with
           | d :: r => if beq d ":"%byte then Ok (Some (up_to_nl (skip_sep r))) else Ok None
           | [] => Ok None
           end
  end.
(** The loop over the lines; [key] is an array of MAX_KEY_LEN + 1 bytes. *)
Fixpoint key_file_lines (server : bytes) (ls : list bytes) (key : bytes) : outcome bytes :=
  match ls with
  | [] => Ok key
  | l :: r =>
      match key_line server l with
      | Fault => Fault
      | Ok None => key_file_lines server r key
      | Ok (Some k) => if zlen k >? MAX_KEY_LEN then Fault else key_file_lines server r k
      end
  end.
Definition get_key_file (server : bytes) (f : option bytes) : step bytes :=
  match f with
  | None => fail
  | Some s => match key_file_lines server (file_lines s) [] with
              | Fault => Fault
              | Ok [] => fail
              | Ok k => ret k
              end
  end.

(** get_keys, fwknop.c:1075-1235.  The decoded bytes, and a NUL, are first stored in an array
    of MAX_KEY_LEN + 1 bytes.  The two cases differ in the lengths that are accepted. *)
Definition decode_key (t : bytes) : step bytes :=
  if zlen (b64_decode_stores t) >? MAX_KEY_LEN + 1 then Fault
  else match b64_decode t with Some k => ret k | None => fail end.
Definition get_key (server : bytes) (s : key_source) : step bytes :=
  match s with
  | KText k => ret (ztake MAX_KEY_LEN k)
  | KBase64 t => try k <- decode_key t; if (0 <? zlen k) && (zlen k <? MAX_KEY_LEN) then ret k else fail
  | KFile f => get_key_file server f
  | KPrompt None => fail
  | KPrompt (Some i) => ret (cstr (read_password i []))
  end.
Definition get_hmac_key (server : bytes) (s : key_source) : step bytes :=
  match s with
  | KText k => ret (ztake MAX_KEY_LEN k)
  | KBase64 t => try k <- decode_key t; if zlen k >? MAX_KEY_LEN then fail else ret k
  | KFile f => get_key_file server f
  | KPrompt None => fail
  | KPrompt (Some i) => ret (cstr (read_password i []))
  end.
(** The keys, and the context with the type of the HMAC set: fwknop.c:1201-1232. *)
Definition get_keys (H : hashes) (o : options) (h : handle) : step (bytes * bytes * handle) :=
  try key <- get_key (o_server o) (o_key o);
  match o_hmac o with
  | None => ret (key, [], h)
  | Some s =>
      try hk <- get_hmac_key (o_server o) s;
      if bseq hk key then fail
      else try h <- must H (CSetHmacType (o_hmac_type o)) h; ret (key, hk, h)
  end.

(** ** main, fwknop.c:78-417, up to the sealed packet *)

(** fwknop.c:119-250: the message *)
Definition build (H : hashes) (v : world) (o : options) : step handle :=
  let '(e, h) := fko_new (v_seed v 0) (v_rand v 0) (v_login v) (v_now v) in
  if negb (ok e) then fail
  else
    try h <- must_if H (o_timeout o >=? 0) (CSetTimeout (o_timeout o)) h;
    try h <- must H (CSetType (message_type o)) h;
    try h <- must_if H (o_plus o >? 0) (CSetTime (v_now v) (o_plus o)) h;
    try h <- must_if H (o_minus o >? 0) (CSetTime (v_now v) (- o_minus o)) h;
    try (t, h) <- (if given (o_command o) then ret (cut (o_ip o ++ $ "," ++ o_command o), h) else set_access_buf H v o h);
    try h <- must H (CSetMsg (Some t)) h;
    try h <- (if o_nat_local o || given (o_nat_access o)
              then try n <- nat_text o; must H (CSetNat (Some n)) h else ret h);
    try h <- must_if H (given (o_user o)) (CSetUser (v_login v) (Some (o_user o))) h;
    try h <- must_if H (negb (o_mode o =? 0)) (CSetMode (o_mode o)) h;
    must_if H (negb (o_digest o =? 0)) (CSetDigestType (o_digest o)) h.

(** fwknop.c:357-399: the keys and the encryption.  In legacy mode the key is cut. *)
Definition seal (H : hashes) (v : world) (o : options) (h : handle) : step handle :=
  try (key, hk, h) <- get_keys H o h;
  let key := if (o_mode o =? FKO_ENC_MODE_CBC_LEGACY_IV) && (zlen key >? 16) then ztake 16 key else key in
  must H (CFinal (Some key) (Some hk) (v_salt v)) h.

(** The handle with the sealed packet. *)
Definition make_packet (H : hashes) (v : world) (o : options) : step handle :=
  try h <- build H v o; seal H v o h.
