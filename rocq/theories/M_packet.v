(** Model of server/process_packet.c and of the reception in server/udp_server.c: how the
    bytes of a frame or datagram become the packet that incoming_spa works on.
    Not modelled: libpcap, the filter, the sockets and the packet counters. *)
From Verif Require Import Bytes M_util M_replay M_incoming.
From Coq Require Import Init.Byte List ZArith Bool.
Import ListNotations.
Open Scope Z_scope.

(** Reading bytes at position [i] of a captured frame; outside of it is undefined. *)
Definition rd (f : bytes) (i : Z) : outcome Z :=
  if (0 <=? i) && (i <? zlen f) then Ok (bv (nth (Z.to_nat i) f x00)) else Fault.
Definition bind {A B} (a : outcome A) (f : A -> outcome B) : outcome B := match a with Ok x => f x | Fault => Fault end.
Notation "'get' x <- a ; b" := (bind a (fun x => b)) (at level 200, x pattern, a at level 100, b at level 200).
(** ntohs and the 32 bit fields, which are kept in host byte order here *)
Definition rd16 (f : bytes) (i : Z) : outcome Z := get a <- rd f i; get b <- rd f (i + 1); Ok (a * 256 + b).
Definition rd32 (f : bytes) (i : Z) : outcome Z := get a <- rd16 f i; get b <- rd16 f (i + 2); Ok (a * 65536 + b).

Definition ETHER_HDR_LEN : Z := 14.   (* net/ethernet.h, as the next three *)
Definition ETHER_CRC_LEN : Z := 4.
Definition ETHER_MIN_LEN : Z := 64.
Definition ETHER_MAX_LEN : Z := 1518.

(** process_packet.c:103-124: the offset of the IP header and the length pkt_len.
    [off] is data_link_offset, [plen] the length field of the pcap header. *)
Definition link_header (off plen : Z) (f : bytes) : outcome (Z * Z) :=
  get t <- rd16 f 12;
  get (o, t) <- (if t =? 33024 then get t2 <- rd16 f 16; Ok (off + 4, t2) else Ok (off, t));
  if (t >? 1500) || (off =? 16)
  then Ok (if t =? 43690 then o + 5 else o, u16 (plen + ETHER_CRC_LEN))
  else Ok (o + 3, plen).

(** process_packet.c:163-202: the ports, and where the data begins; [ip] is the offset of the
    IP header, [h] that of the header that follows.  None: another protocol. *)
Definition transport_header (f : bytes) (proto h : Z) : outcome (option (Z * Z * Z)) :=
  if proto =? 6 then
    get s <- rd16 f h; get d <- rd16 f (h + 2); get w <- rd f (h + 12);
    Ok (Some (s, d, h + 20 + 4 * (w / 16) - 20))
  else if proto =? 17 then
    get s <- rd16 f h; get d <- rd16 f (h + 2); Ok (Some (s, d, h + 8))
  else if proto =? 1 then Ok (Some (0, 0, h + 8))
  else Ok None.

(** process_packet.c:143, process_packet.h:42: the number of words in the IP header is the
    field ihl (4 bits) masked with 0x15. *)
Definition hdr_words (v : Z) : Z := Z.land (v mod 16) 21.

(** process_packet, process_packet.c:44-226: the data that is copied into packet_data, and
    what is noted about the packet.  [f] are the caplen bytes captured.  The compiler's view
    that pointers beyond the frame may not even be computed is not modelled. *)
Definition process_packet (off plen : Z) (f : bytes) : outcome (option (bytes * pkt_info)) :=
  let plen := u16 plen in
  if zlen f <? ETHER_HDR_LEN then Ok None
  else
    get (ip, len) <- link_header off plen f;
    if negb ((ETHER_MIN_LEN <=? len) && (len <=? ETHER_MAX_LEN)) then Ok None
    else if ip + 20 >? zlen f then Ok None
    else
      get v <- rd f ip;
      let words := hdr_words v in
      if words <? 5 then Ok None
      else
        get tot <- rd16 f (ip + 2);
        if ip + tot >? zlen f then Ok None
        else
          get src <- rd32 f (ip + 12);
          get dst <- rd32 f (ip + 16);
          get proto <- rd f (ip + 9);
          get th <- transport_header f proto (ip + 4 * words);
          match th with
          | None => Ok None
          | Some (sport, dport, data) =>
              let n := u16 (tot - (data - ip)) in
              if n <? MIN_SPA_DATA_SIZE then Ok None
              else if n >? MAX_SPA_PACKET_LEN then Ok None
              else if (0 <=? data) && (data + n <=? zlen f)
                   then Ok (Some (ztake n (zdrop data f), mkPkt proto src sport dst dport)) else Fault
          end.

(** process_packet.c:223-231: the structure after the copy; [old] is the array before. *)
Definition deliver (old : bytes) (data : bytes) (i : pkt_info) : packet :=
  mkPacket (data ++ x00 :: zdrop (zlen data + 1) old) (zlen data) i.

(** udp_server.c:189-216: [r] is what recvfrom stored, None if it failed (then pkt_len is -1
    and the NUL is stored before the array); at most MAX_SPA_PACKET_LEN bytes.  The
    destination address is INADDR_ANY and the destination port is that of the server. *)
Definition udp_receive (old : bytes) (r : option bytes) (src sport port : Z) : outcome packet :=
  match r with
  | None => Fault
  | Some m => Ok (mkPacket (fst (strlcpy old (cstr m) (zlen m + 1))) (zlen m) (mkPkt 17 src sport 0 port))
  end.
