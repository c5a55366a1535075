(** Model of client/http_resolve_host.c (-R: the own address as a web server sees it), and of
    its place in main of client/fwknop.c.
    A text stands for the C string in its array; strlcpy, strlcat and snprintf cut it at the
    size of the array (see C41).  Not modelled: Windows, the build without execvp, failures
    of pipe, fork and fdopen (they end like a program that writes nothing), the messages. *)
From Verif Require Import Bytes M_util M_message M_codec M_cipher M_ctx M_incoming M_client.
From Coq Require Import Init.Byte List ZArith Bool.
Import ListNotations.
Open Scope Z_scope.

Definition HTTP_MAX_REQUEST_LEN : Z := 2000.        (* client/fwknop_common.h:65-69, as the next ones *)
Definition HTTP_MAX_RESPONSE_LEN : Z := 2000.
Definition MAX_URL_HOST_LEN : Z := 256.
Definition MAX_URL_PATH_LEN : Z := 1024.
Definition IPV4_LEN : Z := 16.                      (* MAX_IPV4_STR_LEN, lib/fko_limits.h:59 *)
Definition RESOLVE_HOST : bytes := $ "www.cipherdyne.org".      (* HTTP_RESOLVE_HOST, fwknop_common.h:61-64 *)
Definition BACKUP_HOST : bytes := $ "www.cipherdyne.com".
Definition RESOLVE_PATH : bytes := $ "/cgi-bin/myip".
Definition RESOLVE_SSL : bytes := $ "https://" ++ RESOLVE_HOST ++ RESOLVE_PATH.

(** The text in an array of [size] bytes *)
Definition held (size : Z) (s : bytes) : bytes := ztake (size - 1) s.

(** struct url, http_resolve_host.c:50-55 *)
Record url := mkUrl { u_port : bytes; u_host : bytes; u_path : bytes }.

(** strncasecmp(s, p, strlen(p)) == 0, with [p] in lower case *)
Definition starts_with (p s : bytes) : bool := is_prefix p (map tolower s).

(** lines 248-253: without the scheme *)
Definition strip_scheme (s : bytes) : bytes :=
  if starts_with ($ "https://") s then zdrop 8 s
  else if starts_with ($ "http://") s then zdrop 7 s
  else s.
(** lines 287-288: a slash at the end of the text is dropped *)
Definition drop_slash (s : bytes) : bytes :=
  match rev s with c :: r => if beq c "/"%byte then rev r else s | [] => [] end.

(** parse_url, lines 239-328.  Some: the parts, and the URL without its last slash.  The
    index -1 of an empty URL, and a store behind the array host, are Fault.  The length given
    to strlcpy (line 304) is converted to an unsigned type: a negative one is no limit. *)
Definition parse_url (u : bytes) : step (url * bytes) :=
  let s := strip_scheme u in
  try (port, off) <-
    match strchr ":"%byte s with
    | Some r =>
        let '(p, e) := strtol_wrapper (zdrop 1 r) 1 MAX_PORT in
        if negb (strtol_ok e) then fail
        else let t := held MAX_PORT_STR_LEN (dec p) in ret (t, zlen t + 1)     (* line 272: sizeof(url->port)-1 *)
    | None => ret ($ "80", 0)
    end;
  match u with
  | [] => Fault
  | _ :: _ =>
      let s := drop_slash s in
      let rest := strchr "/"%byte s in
      let tlen := match rest with None => zlen s + 1 | Some r => zlen s - zlen r + 1 end - off in
      if tlen >? MAX_URL_HOST_LEN then fail
      else
        try host <- (if tlen <? 0 then if zlen s + 1 >? MAX_URL_HOST_LEN + 1 then Fault else ret s
                     else if tlen =? 0 then ret []
                     else ret (held tlen s));
        match rest with
        | Some r => if zlen r >? MAX_URL_PATH_LEN then fail else ret (mkUrl port host r, drop_slash u)
        | None => ret (mkUrl port host ($ "/"), drop_slash u)
        end
  end.

(** ** The answer *)

(** lines 195-198 and 496-499: the characters of an address, at most [n] *)
Fixpoint ip_chars (n : nat) (s : bytes) : bytes :=
  match n, s with
  | S n', c :: r => if isdigit c || beq c "."%byte then c :: ip_chars n' r else []
  | _, _ => []
  end.
(** One %u of sscanf in a text of digits and dots of at most 16 characters: the number, as the
    int it is stored in, and the rest. *)
Fixpoint digit_run (s : bytes) : bytes :=
  match s with c :: r => if isdigit c then c :: digit_run r else [] | [] => [] end.
Definition scan_u (s : bytes) : option (Z * bytes) :=
  match digit_run s with
  | [] => None
  | ds => Some (i32 (digits_val 0 ds), zdrop (zlen ds) s)
  end.
Definition scan_dot (s : bytes) : option bytes :=
  match s with c :: r => if beq c "."%byte then Some r else None | [] => None end.
Definition octet (n : Z) : bool := (0 <=? n) && (n <=? 255).
(** lines 207-211 and 502-506: sscanf(ndx, "%u.%u.%u.%u", ...) == 4 and the ranges *)
Definition is_quad (s : bytes) : bool :=
  match scan_u s with
  | Some (a, s) => match scan_dot s with
    | Some s => match scan_u s with
      | Some (b, s) => match scan_dot s with
        | Some s => match scan_u s with
          | Some (c, s) => match scan_dot s with
            | Some s => match scan_u s with
              | Some (d, _) => octet a && octet b && octet c && octet d
              | None => false end
            | None => false end
          | None => false end
        | None => false end
      | None => false end
    | None => false end
  | None => false end.
(** lines 194-213: the new value of allow_ip_str[16] *)
Definition address_in (s : bytes) : option bytes :=
  let t := ip_chars (Z.to_nat IPV4_LEN) s in
  if is_quad t then Some (held IPV4_LEN t) else None.

(** lines 160-172: what the calls of recv give, each at most 2000 bytes; nothing (or an
    error) ends it. *)
Fixpoint collect (position : Z) (pieces : list bytes) : bytes :=
  match pieces with
  | [] => []
  | p :: r =>
      let p := ztake HTTP_MAX_REQUEST_LEN p in
      if zlen p =? 0 then []
      else if position + zlen p >=? HTTP_MAX_RESPONSE_LEN then []
      else p ++ collect (position + zlen p) r
  end.
(** lines 184-223 *)
Definition http_address (pieces : list bytes) : option bytes :=
  match strstr (fun c => c) ([x0d; x0a; x0d; x0a]) (cstr (collect 0 pieces)) with
  | None => None
  | Some r => address_in (zdrop 4 r)
  end.

(** lines 84-90: the request *)
Definition crlf : bytes := [x0d; x0a].
Definition request (agent : bytes) (u : url) : bytes :=
  held HTTP_MAX_REQUEST_LEN ($ "GET " ++ u_path u ++ $ " HTTP/1.1" ++ crlf ++ $ "User-Agent: " ++ agent ++ crlf ++ $ "Accept: */*" ++ crlf ++
    $ "Host: " ++ u_host u ++ crlf ++ $ "Connection: close" ++ crlf ++ crlf).

(** The web: the pieces that a host and port answer to a request; None: no connection. *)
Definition web : Type := bytes -> bytes -> option (bytes -> list bytes).
(** try_url, lines 57-236 *)
Definition try_url (w : web) (agent : bytes) (u : url) : option bytes :=
  match w (u_host u) (u_port u) with
  | None => None
  | Some answer => http_address (answer (request agent u))
  end.

(** The options used: resolve_url (None: NULL), http_user_agent[100], wget_bin (None: NULL),
    use_wget_user_agent, resolve_http_only. *)
Record resolver := mkResolver { r_url : option bytes; r_agent : bytes; r_wget : option bytes; r_wget_agent : bool; r_http_only : bool }.

(** resolve_ip_http, lines 525-571 *)
Definition resolve_ip_http (w : web) (q : resolver) : step bytes :=
  match r_url q with
  | Some u =>
      if starts_with ($ "https") u then fail
      else try (p, _) <- parse_url u;
           match try_url w (r_agent q) p with Some ip => ret ip | None => fail end
  | None =>
      match try_url w (r_agent q) (mkUrl ($ "80") RESOLVE_HOST RESOLVE_PATH) with
      | Some ip => ret ip
      | None => match try_url w (r_agent q) (mkUrl ($ "80") BACKUP_HOST RESOLVE_PATH) with
                | Some ip => ret ip
                | None => fail
                end
      end
  end.

(** The text of the wget command, lines 353-400; [exe] is WGET_EXE, None if it is not defined. *)
Definition append (a b : bytes) : bytes := held MAX_URL_PATH_LEN (a ++ b).
Definition wget_cmd (exe : option bytes) (q : resolver) : step bytes :=
  match (match r_wget q with Some b => Some b | None => exe end) with
  | None => fail
  | Some bin =>
      let c := held MAX_URL_PATH_LEN bin in
      let c := if r_wget_agent q then c else append (append c ($ " -U ")) (r_agent q) in
      let c := append c ($ " --secure-protocol=auto --quiet -O - ") in
      match r_url q with
      | Some u => try (_, u') <- parse_url u; ret (append c u')
      | None => ret (append c RESOLVE_SSL)
      end
  end.
(** fgets(resp, 17) on what the program writes (both streams), as a C string *)
Fixpoint first_line (n : nat) (s : bytes) : bytes :=
  match n, s with
  | S n', c :: r => if beq c x0a then [c] else c :: first_line n' r
  | _, _ => []
  end.
(** resolve_ip_https, lines 330-522; [exec] is what the program with these arguments writes. *)
Definition resolve_ip_https (exe : option bytes) (exec : list bytes -> bytes) (q : resolver) : step bytes :=
  try c <- wget_cmd exe q;
  match strtoargv c with
  | Fault => Fault
  | Ok None => fail
  | Ok (Some argv) =>
      match address_in (cstr (first_line (Z.to_nat IPV4_LEN) (exec argv))) with
      | Some ip => ret ip
      | None => fail
      end
  end.

(** main, fwknop.c:190-232: with -R, and without a command for the server, the address is
    looked for before the message is built. *)
Definition set_ip (ip : bytes) (o : options) : options :=
  mkOptions (o_server o) ip (o_access o) (o_command o) (o_nat_access o) (o_nat_local o) (o_nat_port o) (o_nat_rand o) (o_timeout o)
    (o_plus o) (o_minus o) (o_user o) (o_mode o) (o_digest o) (o_key o) (o_hmac o) (o_hmac_type o).
Definition resolve (w : web) (exe : option bytes) (exec : list bytes -> bytes) (q : resolver) : step bytes :=
  if r_http_only q then resolve_ip_http w q else resolve_ip_https exe exec q.
Definition resolve_and_make (H : hashes) (v : world) (w : web) (exe : option bytes) (exec : list bytes -> bytes) (q : resolver) (o : options) : step handle :=
  if given (o_command o) then make_packet H v o
  else try ip <- resolve w exe exec q; make_packet H v (set_ip ip o).
