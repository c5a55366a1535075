(** Specification of the processing of a received packet: which data a packet carries, when
    a stanza lets it act, and what it may do then.  Of the model only the records that
    describe configuration, packets and effects are used, and the library interface. *)
From Verif Require Import Bytes M_base64 S_base64 S_text S_codec S_cipher S_ctx S_access S_replay S_cycle M_util M_codec M_cipher M_ctx M_access M_replay
  M_cycle M_incoming.
From Coq Require Import Init.Byte List ZArith Bool.
Import ListNotations.
Open Scope Z_scope.

(** A switch of the configuration file that is set to yes or no. *)
Definition on (s : bytes) : Prop := exists r, s = "y"%byte :: r \/ s = "Y"%byte :: r.
Definition off (s : bytes) : Prop := exists r, s = "n"%byte :: r \/ s = "N"%byte :: r.

(** ** The data of a packet *)

(** The array of a packet has room for 1500 bytes and a NUL; the bytes received are followed
    by a NUL or contain one. *)
Record packet_ok (p : packet) : Prop := {
  po_buf : zlen (k_buf p) = 1501;
  po_len : 0 <= k_len p <= 1500;
  po_nul : In x00 (ztake (k_len p + 1) (k_buf p));
  po_src : 0 <= p_src (k_info p) < 4294967296;
  po_dst : 0 <= p_dst (k_info p) < 4294967296 }.
(** The bytes received. *)
Definition payload (p : packet) : bytes := ztake (k_len p) (k_buf p).

(** URL-safe characters are put back. *)
Definition url_back (c : byte) : byte :=
  if beq c "-"%byte then "+"%byte else if beq c "_"%byte then "/"%byte else c.
Definition is_http (cf : conf) (p : packet) : Prop :=
  on (cf_http cf) /\ exists g r, payload p = g ++ r /\ lower g = $ "get /".
(** The path of an HTTP request: what follows the slash, up to white space or the end. *)
Definition http_path (p : packet) (path : bytes) : Prop :=
  exists g rest, payload p = g ++ path ++ rest /\ lower g = $ "get /" /\ ~ Exists blank path /\
    (rest = [] \/ exists c r, rest = c :: r /\ blank c).
Definition b64_or_eq (c : byte) : Prop := is_b64_char c \/ c = "="%byte.
(** The SPA data in a packet. *)
Definition carries (cf : conf) (p : packet) (data : bytes) : Prop :=
  (is_http cf p /\ exists path, http_path p path /\ data = map url_back path) \/
  (~ is_http cf p /\ data = payload p).
(** Data that is processed at all. *)
Definition data_ok (data : bytes) : Prop := 140 <= zlen data <= 1500 /\ Forall b64_or_eq data.

(** Packets that still have the prefix that the client removes are not processed. *)
Definition unprefixed (p : packet) : Prop :=
  (forall r, payload p <> $ "U2FsdGVkX1" ++ r) /\ (400 < k_len p -> forall r, payload p <> $ "hQ" ++ r).

(** [follows h t v b]: after the first occurrence of [h] (in any case) in [t] comes [v], up
    to white space or the end, and then [b]. *)
Definition follows (h t v b : bytes) : Prop :=
  exists a h', t = a ++ h' ++ v ++ b /\ lower h' = h /\ ~ Exists blank v /\
    (b = [] \/ exists c r, b = c :: r /\ blank c) /\
    (forall a1 h1 b1, t = a1 ++ h1 ++ b1 -> lower h1 = h -> zlen a <= zlen a1).
(** The text of a request ends at the first NUL byte. *)
Definition request_text (p : packet) (t : bytes) : Prop :=
  no_nul t /\ (payload p = t \/ exists z, payload p = t ++ x00 :: z).
(** The user agent that may be demanded. *)
Definition agent_ok (cf : conf) (p : packet) : Prop :=
  off (cf_any_user_agent cf) -> is_http cf p -> exists t a b, request_text p t /\ t = a ++ $ "User-Agent: Fwknop" ++ b.
(** An X-Forwarded-For header that is looked at, with value [v] and the text [b] after it. *)
Definition forward_header (cf : conf) (p : packet) (v b : bytes) : Prop :=
  on (cf_xff cf) /\ is_http cf p /\ exists t, request_text p t /\ follows ($ "x-forwarded-for: ") t v b.
Definition address_text (v : bytes) : Prop := 7 <= zlen v <= 15 /\ exists a b c d, ipv4_text v a b c d.
(** The address of the client according to that header, empty if there is none. *)
Definition forwarded (cf : conf) (p : packet) (fwd : bytes) : Prop :=
  (address_text fwd /\ exists b, forward_header cf p fwd b) \/
  (fwd = [] /\ forall v b, forward_header cf p v b -> ~ address_text v).

(** ** Stanzas *)
Definition in_nets (l : list net) (ip : Z) : Prop :=
  exists n, In n l /\ Z.land ip (net_mask n) = Z.land (net_maddr n) (net_mask n).
Definition addressed (a : stanza) (p : packet) : Prop :=
  in_nets (a_source a) (p_src (k_info p)) /\ (forall l, a_dest a = Some l -> in_nets l (p_dst (k_info p))).
(** The expiration date has been set and is over, or was found to be over before. *)
Definition expired (now : Z) (a : stanza) : Prop := a_expire a > 0 /\ (a_expired a = true \/ now > a_expire a).

(** A stanza that uses Rijndael has a key. *)
Definition stanza_ok (a : stanza) : Prop := a_rijndael a = true -> a_key a <> None.

(** The library accepts the data with the Rijndael key and the HMAC key of the stanza, and
    shows the message [m]. *)
Definition key_opens (H : hashes) (a : stanza) (data : bytes) (m : spa) : Prop :=
  a_rijndael a = true /\ (zlen data < 400 \/ a_cmd a = true) /\
  exists k h, a_key a = Some k /\
    fko_new_with_data H (Some data) (Some k) (a_mode a) (a_hmac_key a) (a_hmac_type a) = Ok (FKO_SUCCESS, h) /\ shows h m.

(** [data] is a text with the HMAC that the key demands, [t] is the text with its prefix. *)
Definition auth_text (H : hashes) (mode : Z) (hk : option bytes) (ht : Z) (data t : bytes) : Prop :=
  match hk with
  | Some (x :: r) => exists h body, hash_number H ht h /\
      data = body ++ b64_text (rfc2104 h (hash_block ht) (x :: r) (with_prefix mode body)) /\
      t = with_prefix mode body
  | _ => t = data
  end.
(** The signatures demanded by a stanza. *)
Definition signed (a : stanza) (sigs : list gpg_sig) : Prop :=
  a_gpg_require_sig a = true ->
  exists s r fpr, sigs = s :: r /\ (a_gpg_ignore_sig_error a = true \/ (sg_good s = true /\ 3 <= sg_validity s)) /\
    sg_fpr s = Some fpr /\ 8 <= zlen fpr /\
    (forall l, a_gpg_fprs a = Some l -> In fpr l) /\
    (forall l, a_gpg_ids a = Some l -> exists q id, fpr = q ++ id /\ zlen id = 8 /\ In id l).
(** GnuPG opens the data with the key ring of the stanza. *)
Definition gpg_opens (H : hashes) (G : gpg) (a : stanza) (data : bytes) (m : spa) : Prop :=
  a_gpg a = true /\ a_gpg_pw a = true /\ g_params G a = true /\ 400 <= zlen data /\
  (exists h, fko_new_with_data H (Some data) None 7 (a_hmac_key a) (a_hmac_type a) = Ok (FKO_SUCCESS, h)) /\
  exists t cipher pt sigs dt dg, auth_text H 7 (a_hmac_key a) (a_hmac_type a) data t /\ 400 <= zlen t /\
    b64_decode (with_prefix 7 t) = Some cipher /\ g_open G a cipher = Some (pt, sigs) /\ signed a sigs /\
    decode_spa H (cstr pt) = Some (m, dt, dg).
(** The data authenticates and decrypts under the keys of the stanza, as the message [m]. *)
Definition opens (H : hashes) (G : gpg) (a : stanza) (data : bytes) (m : spa) : Prop :=
  (key_opens H a data m /\ (400 <= zlen data -> a_gpg_require_sig a = false)) \/
  ((forall m', ~ key_opens H a data m') /\ gpg_opens H G a data m).

(** ** Checks of a message against a stanza *)

(** The difference of the clocks as the program computes it: an int. *)
Definition fresh_wrapped (cf : conf) (now t : Z) : Prop := on (cf_aging cf) -> i32 (Z.abs (now - t)) <= cf_max_age cf.
Definition fresh (cf : conf) (now t : Z) : Prop := on (cf_aging cf) -> Z.abs (now - t) <= cf_max_age cf.

Definition type_allowed (cf : conf) (t : Z) : Prop :=
  ((t = 2 \/ t = 4) -> on (cf_forwarding cf)) /\ ((t = 5 \/ t = 6) -> on (cf_local_nat cf)).

(** The time the access is to last. *)
Definition duration (a : stanza) (client t : Z) : Prop :=
  (client > 0 /\ t = Z.min client (u32 (a_max_timeout a))) \/
  (client <= 0 /\ a_fw_timeout a > 0 /\ t = a_fw_timeout a) \/
  (client <= 0 /\ a_fw_timeout a <= 0 /\ t = 30).

(** The text of an address. *)
Definition text_of_addr (s : bytes) (x : Z) : Prop :=
  exists a b c d, ipv4_text s a b c d /\ zlen s <= 15 /\ addr a b c d = x.

(** The usual way to write it, without leading zeros. *)
Definition dotted (s : bytes) (x : Z) : Prop :=
  exists sa sb sc sd a b c d, s = join ["."%byte] [sa; sb; sc; sd] /\
    writes sa a /\ writes sb b /\ writes sc c /\ writes sd d /\
    0 <= a < 256 /\ 0 <= b < 256 /\ 0 <= c < 256 /\ 0 <= d < 256 /\ addr a b c d = x.

(** The address to open: the one in the message, or if that is 0.0.0.0 and the stanza does
    not insist on an address, the one the packet came from, as far as is known. *)
Definition opened_for (a : stanza) (src fwd pkt_src use : bytes) : Prop :=
  (src <> $ "0.0.0.0" /\ use = src) \/
  (src = $ "0.0.0.0" /\ a_require_src a = false /\ ((fwd <> [] /\ use = fwd) \/ (fwd = [] /\ use = pkt_src))).

(** [d] is what the message [m] asks for in the stanza [a]. *)
Record asks (a : stanza) (p : packet) (fwd : bytes) (m : spa) (d : spa_data) : Prop := {
  as_user : d_user d = s_user m;
  as_time : d_time d = s_time m;
  as_version : d_version d = s_version m;
  as_type : d_type d = s_type m;
  as_msg : d_msg d = s_msg m;
  as_split : s_msg m = d_src d ++ [","%byte] ++ d_remain d /\ exists i, text_of_addr (d_src d) i;
  as_pkt_src : dotted (d_pkt_src d) (p_src (k_info p));
  as_pkt_dst : dotted (d_pkt_dst d) (p_dst (k_info p));
  as_fwd : d_xff d = fwd;
  as_nat : d_nat d = s_nat m;
  as_auth : d_auth d = s_auth m;
  as_client : d_client_timeout d = s_timeout m;
  as_timeout : duration a (s_timeout m) (d_timeout d);
  as_use : opened_for a (d_src d) fwd (d_pkt_src d) (d_use d) }.

(** The message passes the checks that all kinds of messages are subject to. *)
Definition passes (cf : conf) (now : Z) (a : stanza) (m : spa) : Prop :=
  fresh_wrapped cf now (s_time m) /\ (forall u, a_require_user a = Some u -> s_user m = u) /\ type_allowed cf (s_type m).

(** The ports asked for are permitted. *)
Definition ports_allowed (a : stanza) (request : bytes) : Prop :=
  exists items pl, comma_separated request items /\
    Forall2 (fun it e => port_entry it (fst e) (snd e)) items pl /\
    (forall q, In q pl -> ~ In q (a_restrict a)) /\ (a_open a <> [] -> forall q, In q pl -> In q (a_open a)).

(** User and group names that the program takes for root: those that start with root, in
    any case. *)
Definition rootish (u : bytes) : Prop := exists q r, u = q ++ r /\ lower q = $ "root".
Definition sudo_part (flag : bytes) (name : option bytes) (t : bytes) : Prop :=
  match name with
  | Some u => (rootish u /\ t = []) \/ (~ rootish u /\ t = flag ++ u)
  | None => t = []
  end.
(** The command line for a command: the command, or sudo with user, group and the command.
    At most 1399 bytes are kept. *)
Definition command_line (cf : conf) (a : stanza) (command cmd : bytes) : Prop :=
  (a_sudo a = false /\ cmd = command) \/
  (a_sudo a = true /\ exists u g, sudo_part ($ " -u ") (a_sudo_user a) u /\
     ((a_cmd_group a = None /\ g = []) \/ (a_cmd_group a <> None /\ a_sudo_group a <> None /\ sudo_part ($ " -g ") (a_sudo_group a) g)) /\
     cmd = ztake 1399 (cf_sudo_exe cf ++ u ++ g ++ $ " " ++ command)).
(** Whose privileges it runs with: None are those of the daemon. *)
Definition runs_as (a : stanza) (who : option (Z * Z)) : Prop :=
  (exists u, a_cmd_user a = Some u /\ ~ rootish u /\ who = Some (a_uid a, a_gid a)) \/
  ((forall u, a_cmd_user a = Some u -> rootish u) /\ who = None).

(** What a message may cause in stanza number [k]. *)
Definition may (cf : conf) (a : stanza) (k : Z) (m : spa) (d : spa_data) (e : effect) : Prop :=
  match e with
  | Grant k' d' => k' = k /\ d' = d /\ a_cycle a = None /\ s_type m <> 0 /\ cf_test cf = false /\ ports_allowed a (d_remain d)
  | Command k' cmd who => k' = k /\ a_cycle a = None /\ s_type m = 0 /\ cf_test cf = false /\ a_cmd a = true /\
      command_line cf a (d_remain d) cmd /\ runs_as a who
  | CycleOpen k' cmd => k' = k /\ exists cc, a_cycle a = Some cc /\ build_cmd d (cc_open cc) (cc_timer cc) = Ok (Some cmd)
  end.

(** Stanza number [k] lets the packet cause the effect [e]. *)
Definition lets (H : hashes) (G : gpg) (cf : conf) (now : Z) (p : packet) (fwd data : bytes) (a : stanza) (k : Z) (e : effect) : Prop :=
  addressed a p /\ ~ expired now a /\
  exists m d, opens H G a data m /\ received m /\ passes cf now a m /\ asks a p fwd m d /\ may cf a k m d e.

(** ** Histories *)

(** Every stanza is usable and lists no open port twice. *)
Definition config_ok (acc : list stanza) : Prop := Forall (fun a => stanza_ok a /\ NoDup (a_open a)) acc.

(** A packet arrives; the daemon is stopped and started with a new access file; it is killed
    while it writes a digest line, [k] bytes of which reach the disk, and started again. *)
Inductive happening :=
| Arrives (en : env) (p : packet)
| Restarts (acc : list stanza)
| Dies (d : bytes) (i : pkt_info) (now : Z) (k : nat) (acc : list stanza).
Definition happening_ok (x : happening) : Prop :=
  match x with
  | Arrives _ p => packet_ok p
  | Restarts _ => True
  | Dies d i now k _ => event_ok (Killed d i now k)
  end.
(** What happens, and what each arriving packet causes. *)
Inductive history (H : hashes) (G : gpg) (cf : conf) : sstate -> list (happening * list effect) -> sstate -> Prop :=
| hi_end st : history H G cf st [] st
| hi_arrives st en p effs st1 l st2 : incoming_spa H G cf en p st = Ok (effs, st1) -> history H G cf st1 l st2 ->
    history H G cf st ((Arrives en p, effs) :: l) st2
| hi_restarts st acc l st2 : history H G cf (mkSt acc (happen (st_replay st) Restarted) []) l st2 ->
    history H G cf st ((Restarts acc, []) :: l) st2
| hi_dies st d i now k acc l st2 : history H G cf (mkSt acc (happen (st_replay st) (Killed d i now k)) []) l st2 ->
    history H G cf st ((Dies d i now k acc, []) :: l) st2.
Definition is_death (x : happening) : bool := match x with Dies _ _ _ _ _ => true | _ => false end.

(** The text of the digest by which a packet is remembered: that of SHA-256. *)
Definition packet_digest (H : hashes) (data : bytes) : bytes := b64_text (h_sha256 H data).
(** A digest the cache knows. *)
Definition remembered (l : cache) (d : bytes) : Prop := exists c, In c l /\ ztake 43 (ci_buf c) = d.
(** All entries of a cache have a digest. *)
Definition cache_ok (l : cache) : Prop := Forall (fun c => 43 <= zlen (ci_buf c)) l.

(** The forwarded address that the program finds: as it should be, or, if nothing follows the
    value of the header, without its first character. *)
Definition forwarded_read (cf : conf) (p : packet) (fwd : bytes) : Prop :=
  forwarded cf p fwd \/
  exists c v, forward_header cf p (c :: v) [] /\ ((fwd = v /\ address_text v) \/ (fwd = [] /\ ~ address_text v)).
(** A packet with SPA data that reaches the stanzas: well-formed and not seen before. *)
Definition processed (H : hashes) (cf : conf) (l : cache) (p : packet) (data : bytes) : Prop :=
  carries cf p data /\ data_ok data /\ zlen data < 1500 /\ unprefixed p /\ agent_ok cf p /\
  (on (cf_digest_persistence cf) -> ~ remembered l (packet_digest H data)).
(** The close command of every command cycle that the packet could open can be built. *)
Definition closable (H : hashes) (G : gpg) (p : packet) (fwd data : bytes) (l : list stanza) : Prop :=
  forall a m d cc, In a l -> opens H G a data m -> asks a p fwd m d -> a_cycle a = Some cc -> cc_do_close cc = true ->
    build_cmd d (cc_close cc) (cc_timer cc) <> Ok None.
(** A stanza, but for the note that it has expired. *)
Definition same_stanza (a a' : stanza) : Prop := a' = a \/ a' = expire_stanza a.

(** The text [d] ends in the HMAC of [t], and the rest of it is the end of [t]. *)
Definition sealed (h : bytes -> bytes) (block : nat) (key t d : bytes) : Prop :=
  exists b pre, t = pre ++ b /\ d = b ++ b64_text (rfc2104 h block key t).
