(** What leaves the client and how it arrives, written without reference to its code.  Of the
    model only the record of what is given to the system is used. *)
From Verif Require Import Bytes M_util M_codec M_cipher M_ctx M_access M_replay M_incoming M_client S_base64 S_text S_codec S_cipher S_ctx S_conf S_cycle M_send S_client S_incoming S_packet.
From Coq Require Import Init.Byte List ZArith Bool.
Import ListNotations.
Open Scope Z_scope.

(** The SPA data: base64 text without padding, short enough for the server, that neither
    starts with the prefix of the ciphertext nor looks like a request. *)
Definition packet_text (d : bytes) : Prop :=
  Forall is_b64_char d /\ zlen d < 1500 /\ exists c r, d = c :: r /\ In c ($ "89+/").
(** Its length, from that of the plaintext: whole blocks, at least one byte of padding, the
    salt with its mark, base64, without the ten characters that are the same in all packets. *)
Definition body_length (n : Z) : Z := (4 * (16 + 16 * (n / 16 + 1)) + 2) / 3 - 10.
(** The length of the HMAC in base64. *)
Definition mac_length (type : Z) : Z :=
  nth (Z.to_nat type) [0; 22; 27; 43; 64; 86; 43; 86] 0.

(** What the kernel makes of the bytes given to a raw socket: it fills in the length and the
    check sum, and the identification and the source address if they are zero. *)
Definition on_wire (raw ip : bytes) : Prop :=
  zlen ip = zlen raw /\ field 2 2 ip = zlen raw /\
  (forall i, ~ (2 <= Z.of_nat i < 6) -> ~ (10 <= Z.of_nat i < 16) -> nth_error ip i = nth_error raw i) /\
  (field 12 4 raw <> 0 -> field 12 4 ip = field 12 4 raw).
(** Ports, and texts that fit their arrays; addresses of four bytes. *)
Record route_ok (w : network) (x : route) : Prop := {
  rt_dport : 0 <= x_dport x <= 65535;
  rt_sport : 0 <= x_sport x <= 65535;
  rt_agent : no_nul (x_agent x) /\ zlen (x_agent x) <= 99;
  rt_addr : forall h a, w_addr w h = Some a -> 0 <= a < 4294967296 }.
(** The request goes to the server itself, which looks at requests. *)
Definition http_served (cf : conf) (x : route) : Prop :=
  on (cf_http cf) /\ x_proxy x = [] /\ (off (cf_any_user_agent cf) -> exists r, x_agent x = $ "Fwknop" ++ r).
(** What is sent arrives as the packet [p]. *)
Inductive arrives : sending -> packet -> Prop :=
| ar_datagram host port p : arrives (Datagram host port (payload p)) p
| ar_stream host port p : arrives (Stream host port (payload p)) p
| ar_raw addr raw ip p : on_wire raw ip -> datagram ip (k_info p) (payload p) -> arrives (Raw addr raw) p.

(** The stanza has the settings of the client. *)
Record agreed (o : options) (a : stanza) : Prop := {
  ag_rijndael : a_rijndael a = true;
  ag_key : forall k k', key_from (o_server o) (o_key o) k -> key_used (or_default (o_mode o) 2) k k' -> a_key a = Some k';
  ag_mode : a_mode a = or_default (o_mode o) 2;
  ag_hmac : match o_hmac o with
            | None => a_hmac_key a = None /\ a_hmac_type a = 0
            | Some s => 1 <= o_hmac_type o <= 7 /\ a_hmac_type a = o_hmac_type o /\
                        forall x, key_from (o_server o) s x -> a_hmac_key a = Some x /\ x <> []
            end }.
(** The length of the data that is sent for the message [m]. *)
Definition sent_length (o : options) (m : spa) (n : Z) : Prop :=
  exists l, plain_length (or_default (o_digest o) 3) m l /\
    n = body_length l + match o_hmac o with None => 0 | Some _ => mac_length (o_hmac_type o) end.

(** The sum of RFC 1071: the 16-bit words, in network byte order, a last odd byte filled up
    with zero, add up to a multiple of 65535. *)
Fixpoint words (b : bytes) : Z :=
  match b with
  | x :: y :: r => 256 * bv x + bv y + words r
  | [x] => 256 * bv x
  | [] => 0
  end.
Definition sum_ok (b : bytes) : Prop := words b mod 65535 = 0 /\ words b > 0.
(** The sum of a TCP segment includes addresses, protocol and length. *)
Definition pseudo (src dst proto len : Z) : bytes :=
  [zb (src / 16777216); zb (src / 65536); zb (src / 256); zb src; zb (dst / 16777216); zb (dst / 65536); zb (dst / 256); zb dst;
   x00; zb proto; zb (len / 256); zb len].

(** The port of a random choice. *)
Definition high_port (p : Z) : Prop := 10000 <= p <= 65534.
(** Where something is sent: host name and port, or address and port of the segment behind an
    IP header of 20 bytes. *)
Definition sent_to_port (s : sending) (p : Z) : Prop :=
  match s with
  | Datagram _ q _ => q = p
  | Stream _ q _ => q = p
  | Raw _ raw => field 22 2 raw = p
  end.
Definition sent_from_port (s : sending) (p : Z) : Prop :=
  match s with Raw _ raw => field 20 2 raw = p | _ => False end.
(** The number of the protocol of a raw packet. *)
Definition raw_number (p : protocol) : Z := match p with TCP_RAW => 6 | UDP_RAW => 17 | _ => 1 end.
