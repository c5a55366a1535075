(** Specification of the reception of packets: frames with an IPv4 datagram in it.  Of the
    model only the record of packet addresses is used. *)
From Verif Require Import Bytes M_replay.
From Coq Require Import Init.Byte List ZArith Bool.
Import ListNotations.
Open Scope Z_scope.

(** The number in network byte order in the [n] bytes at position [i]. *)
Definition field (i n : nat) (l : bytes) : Z := fold_left (fun a c => a * 256 + bv c) (firstn n (skipn i l)) 0.

(** The segment of a transport protocol: 6 TCP, whose header has its length in the upper half
    of byte 12, in words; 17 UDP and 1 ICMP, with headers of 8 bytes. *)
Definition segment (proto : Z) (seg : bytes) (sport dport : Z) (data : bytes) : Prop :=
  exists h, seg = h ++ data /\
    ((proto = 6 /\ zlen h = 4 * (field 12 1 seg / 16) /\ sport = field 0 2 seg /\ dport = field 2 2 seg) \/
     (proto = 17 /\ zlen h = 8 /\ sport = field 0 2 seg /\ dport = field 2 2 seg) \/
     (proto = 1 /\ zlen h = 8 /\ sport = 0 /\ dport = 0)).
(** An IPv4 datagram: the header has its length in words in the lower half of the first byte,
    at least 5, and the length of all in bytes 2 and 3. *)
Definition datagram (ip : bytes) (i : pkt_info) (data : bytes) : Prop :=
  exists h seg, ip = h ++ seg /\ zlen h = 4 * (field 0 1 ip mod 16) /\ 20 <= zlen h /\ zlen ip = field 2 2 ip /\
    p_proto i = field 9 1 ip /\ p_src i = field 12 4 ip /\ p_dst i = field 16 4 ip /\
    segment (p_proto i) seg (p_sport i) (p_dport i) data.
(** The number of words in the IP header according to its first byte. *)
Definition header_words (ip : bytes) : Z := field 0 1 ip mod 16.
(** The same datagram taken for one without options in its header, whatever its first byte
    says: the first 20 bytes are the header. *)
Definition read_plain (ip : bytes) (i : pkt_info) (data : bytes) : Prop :=
  exists h seg, ip = h ++ seg /\ zlen h = 20 /\ zlen ip = field 2 2 ip /\
    p_proto i = field 9 1 ip /\ p_src i = field 12 4 ip /\ p_dst i = field 16 4 ip /\
    segment (p_proto i) seg (p_sport i) (p_dport i) data.

(** The VLAN tag of a frame, and the type of its contents. *)
Definition tagged (f : bytes) : Prop := field 12 2 f = 33024.
Definition contents (f : bytes) (t : Z) : Prop :=
  (tagged f /\ t = field 16 2 f) \/ (~ tagged f /\ t = field 12 2 f).
(** How long the headers in front of the IP header are; [off] is that of the link without
    options, 16 stands for the pseudo interface any. *)
Definition link_length (off : Z) (f : bytes) (n : Z) : Prop :=
  exists o t, ((tagged f /\ o = off + 4) \/ (~ tagged f /\ o = off)) /\ contents f t /\
    (((t > 1500 \/ off = 16) /\ t = 43690 /\ n = o + 5) \/ ((t > 1500 \/ off = 16) /\ t <> 43690 /\ n = o) \/
     (t <= 1500 /\ off <> 16 /\ n = o + 3)).
(** The frame has a length that is legal for Ethernet, [len] not including the check sum
    unless the frame is of the old kind. *)
Definition legal_length (off : Z) (f : bytes) (len : Z) : Prop :=
  forall t, contents f t -> ((t > 1500 \/ off = 16) -> 60 <= len <= 1514) /\ (t <= 1500 -> off <> 16 -> 64 <= len <= 1518).
