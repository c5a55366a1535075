(** Model of client/spa_comm.c: the packet leaves the client; and of the end of main in
    client/fwknop.c, 418-458.
    Not modelled: the address look-ups (their results are in [network]), the sockets (what is
    handed to send and sendto is the result), short writes, the decoding in test mode. *)
From Verif Require Import Bytes M_base64 M_util M_message M_codec M_cipher M_ctx M_accfile M_client.
From Coq Require Import Init.Byte List ZArith Bool.
Import ListNotations.
Open Scope Z_scope.

Definition HTTP_MAX_REQUEST_LEN : Z := 2000.
Definition MAX_SERVER_STR_LEN : Z := 50.
Definition RAW_SPA_TTL : Z := 255.                 (* common/common.h:155 *)

(** common/common.h:134-141 *)
Inductive protocol := UDP | UDP_RAW | TCP | TCP_RAW | ICMP | HTTP.
(** The members of fko_cli_options_t about the transmission. *)
Record route := mkRoute {
  x_proto : protocol;
  x_dport : Z; x_sport : Z;     (* spa_dst_port, spa_src_port; 0 if not set *)
  x_rand_port : bool;
  x_spoof : bytes;              (* spoof_ip_src_str *)
  x_agent : bytes;              (* http_user_agent[100] *)
  x_proxy : bytes;              (* http_proxy[2000] *)
  x_icmp_type : Z; x_icmp_code : Z;
  x_test : bool;
  x_save : bool }.              (* save_packet_file is set *)
(** The address of a host, and the values of random() used in the headers. *)
Record network := mkNetwork { w_addr : bytes -> option Z; w_id : Z; w_icmp_id : Z }.

(** What is given to the system: a datagram or the data of a connection, for a host and a
    port, or the bytes of an IP packet for an address. *)
Inductive sending :=
| Datagram (host : bytes) (port : Z) (data : bytes)
| Stream (host : bytes) (port : Z) (data : bytes)
| Raw (addr : Z) (packet : bytes).

(** Numbers in memory: network byte order, and that of the host (little endian). *)
Definition be16 (n : Z) : bytes := [zb (n / 256); zb n].
Definition be32 (n : Z) : bytes := be16 (n / 65536) ++ be16 n.
Definition le16 (n : Z) : bytes := [zb n; zb (n / 256)].

(** chksum, spa_comm.c:56-80; the odd byte at the end is read together with the byte behind
    it, which is 0 here (the arrays are). *)
Fixpoint sum_words (b : bytes) : Z :=
  match b with
  | x :: y :: r => bv x + 256 * bv y + sum_words r
  | [x] => bv x
  | [] => 0
  end.
Definition chksum (b : bytes) : Z :=
  let sum := u32 (sum_words b) in
  let sum := sum / 65536 + sum mod 65536 in
  let sum := sum + sum / 65536 in
  65535 - u16 sum.

(** The IP header, spa_comm.c:247-260, 361-374, 461-474: [len] in host byte order. *)
Definition ip_header (proto len id check saddr daddr : Z) : bytes :=
  [zb 69; zb 0] ++ le16 len ++ le16 id ++ [zb 0; zb 0; zb RAW_SPA_TTL; zb proto] ++ le16 check ++ be32 saddr ++ be32 daddr.
(** The packet with the sum computed over all of it: 285, 385, 490. *)
Definition ip_packet (proto id saddr daddr : Z) (seg : bytes) : bytes :=
  let len := 20 + zlen seg in
  ip_header proto len id (chksum (ip_header proto len id 0 saddr daddr ++ seg)) saddr daddr ++ seg.

(** spa_comm.c:264-281 *)
Definition tcp_segment (sport dport : Z) (data : bytes) : bytes :=
  be16 sport ++ be16 dport ++ be32 1 ++ be32 0 ++ [zb 80; zb 2] ++ be16 32767 ++ [zb 0; zb 0] ++ [zb 0; zb 0] ++ data.
(** 378-381 *)
Definition udp_segment (sport dport : Z) (data : bytes) : bytes :=
  be16 sport ++ be16 dport ++ be16 (zlen data + 8) ++ [zb 0; zb 0] ++ data.
(** 478-491; the sum of the IP header is computed before that of the message is stored. *)
Definition icmp_message (type code check id : Z) (data : bytes) : bytes :=
  [zb type; zb code] ++ le16 check ++
  (if (type mod 256 =? 8) && (code mod 256 =? 0) then be16 id ++ be16 1 else [zb 0; zb 0; zb 0; zb 0]) ++ data.
Definition icmp_segment (type code id : Z) (data : bytes) : bytes :=
  icmp_message type code (chksum (icmp_message type code 0 id data)) id data.
Definition icmp_packet (type code icmp_id id saddr daddr : Z) (data : bytes) : bytes :=
  let len := 28 + zlen data in
  ip_header 1 len id (chksum (ip_header 1 len id 0 saddr daddr ++ icmp_message type code 0 icmp_id data)) saddr daddr
  ++ icmp_segment type code icmp_id data.

(** send_spa_packet_http, spa_comm.c:537-558 and 592-599 *)
Definition url_safe (c : byte) : byte := if beq c "+"%byte then "-"%byte else if beq c "/"%byte then "_"%byte else c.
Definition crlf : bytes := [x0d; x0a].
Definition http_request (path agent host : bytes) : bytes :=
  ztake (HTTP_MAX_REQUEST_LEN - 1)
    ($ "GET " ++ path ++ $ " HTTP/1.1" ++ crlf ++ $ "User-Agent: " ++ agent ++ crlf ++ $ "Accept: */*" ++ crlf ++
     $ "Host: " ++ host ++ crlf ++ $ "Connection: close" ++ crlf ++ crlf).
(** 565-602: host and port of the proxy.  memmove reads seven bytes more than the string
    has. *)
Definition proxy_of (x : route) : step (bytes * Z) :=
  try p <- (if bseq (map tolower (ztake 7 (x_proxy x))) ($ "http://")
            then if zlen (x_proxy x) + 8 >? HTTP_MAX_REQUEST_LEN then Fault else ret (zdrop 7 (x_proxy x))
            else ret (x_proxy x));
  match strchr ":"%byte p with
  | None => ret (p, x_dport x)
  | Some r => let '(n, e) := strtol_wrapper (zdrop 1 r) 1 MAX_PORT in
              if strtol_ok e then ret (ztake (zlen p - zlen r) p, n) else fail
  end.
Definition send_http (server data : bytes) (x : route) : step (option sending) :=
  let d := map url_safe data in
  try (host, port, req) <-
    (match x_proxy x with
     | [] => ret (server, x_dport x, http_request ($ "/" ++ d) (x_agent x) server)
     | _ => try (p, port) <- proxy_of x;
            ret (ztake (MAX_SERVER_STR_LEN - 1) p, port, http_request ($ "http://" ++ server ++ $ "/" ++ d) (x_agent x) p)
     end);
  ret (if x_test x then None else Some (Stream host port req)).

(** send_spa_packet, spa_comm.c:622-752, with the senders 84-517.  inet_addr answers -1 for
    the address with all bits set and for what is no address. *)
Definition source_addr (x : route) : option Z :=
  match x_spoof x with
  | [] => Some 0
  | s => match inet_aton s with Some a => if a =? 4294967295 then None else Some a | None => None end
  end.
Definition send_spa_packet (w : network) (server data : bytes) (x : route) : step (option sending) :=
  let raw (f : Z -> Z -> bytes) : step (option sending) :=
    match source_addr x with
    | None => fail
    | Some s => match w_addr w server with
                | None => fail
                | Some d => ret (if x_test x then None else Some (Raw d (f s d)))
                end
    end in
  match x_proto x with
  | UDP => ret (if x_test x then None else Some (Datagram server (x_dport x) data))
  | TCP => ret (if x_test x then None else Some (Stream server (x_dport x) data))
  | HTTP => send_http server data x
  | TCP_RAW => raw (fun s d => ip_packet 6 (w_id w) s d (tcp_segment (x_sport x) (x_dport x) data))
  | UDP_RAW => raw (fun s d => ip_packet 17 (w_id w) s d (udp_segment (x_sport x) (x_dport x) data))
  | ICMP => raw (fun s d => icmp_packet (x_icmp_type x) (x_icmp_code x) (w_icmp_id w) (w_id w) s d data)
  end.

(** fwknop.c:420-446: the random ports. *)
Definition with_dport (p : Z) (x : route) : route :=
  mkRoute (x_proto x) p (x_sport x) (x_rand_port x) (x_spoof x) (x_agent x) (x_proxy x) (x_icmp_type x) (x_icmp_code x) (x_test x) (x_save x).
Definition with_sport (p : Z) (x : route) : route :=
  mkRoute (x_proto x) (x_dport x) p (x_rand_port x) (x_spoof x) (x_agent x) (x_proxy x) (x_icmp_type x) (x_icmp_code x) (x_test x) (x_save x).
Definition is_raw (p : protocol) : bool := match p with TCP_RAW | UDP_RAW | ICMP => true | _ => false end.
Definition rand_port (H : hashes) (v : world) (i : nat) (h : handle) : step (Z * handle) :=
  match get_rand_port H v i h with
  | Fault => Fault
  | Ok (None, _) => fail
  | Ok (Some p, h') => ret (p, h')
  end.
Definition choose_ports (H : hashes) (v : world) (x : route) (h : handle) : step (route * handle) :=
  try (x, h) <- (if x_rand_port x then try (p, h) <- rand_port H v 2 h; ret (with_dport p x, h) else ret (x, h));
  if is_raw (x_proto x) && (x_sport x =? 0) then try (p, h) <- rand_port H v 3 h; ret (with_sport p x, h) else ret (x, h).

(** How a run of the client ends: the line written to the packet file, what was sent, and
    whether the exit status is that of success. *)
Record ending := mkEnding { n_saved : option bytes; n_sent : option sending; n_ok : bool }.

(** fwknop.c:418-458 with write_spa_packet_data, spa_comm.c:756-796. *)
Definition transmit (H : hashes) (v : world) (w : network) (server : bytes) (x : route) (h : handle) : outcome ending :=
  match fko_get_spa_data h with
  | Fault => Fault
  | Ok (e, d) =>
      let saved := if x_save x && ok e then option_map (fun t => t ++ [x0a]) d else None in
      match choose_ports H v x h with
      | Fault => Fault
      | Ok None => Ok (mkEnding saved None false)
      | Ok (Some (x, h)) =>
          match fko_get_spa_data h with
          | Fault => Fault
          | Ok (FKO_SUCCESS, Some data) =>
              match send_spa_packet w server data x with
              | Fault => Fault
              | Ok None => Ok (mkEnding saved None false)
              | Ok (Some s) => Ok (mkEnding saved s true)
              end
          | Ok _ => Ok (mkEnding saved None false)
          end
      end
  end.

(** main *)
Definition client (H : hashes) (v : world) (w : network) (o : options) (x : route) : outcome ending :=
  match make_packet H v o with
  | Fault => Fault
  | Ok None => Ok (mkEnding None None false)
  | Ok (Some h) => transmit H v w (o_server o) x h
  end.
