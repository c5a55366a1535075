(** Property theorems: the reception of packets. *)
From Verif Require Import Bytes S_text S_access S_incoming M_util M_access M_replay M_cycle M_incoming M_packet S_packet P_bytes P_incoming P_packet T_codec T_ctx T_incoming.
From Coq Require Import Init.Byte List ZArith Bool Lia.
Import ListNotations.
Open Scope Z_scope.

(** ** C33 Frames *)
(** What is taken from a frame is the payload of the TCP, UDP or ICMP datagram in it, all of
    it, with its addresses and ports, and it has 140 to 1500 bytes, if the IP header has no
    options.  A header that claims 7, 13 or 15 words is read as one of 5 words, and the rest
    of it as that of the protocol (see below). *)
Theorem C33_frame_data_partial : forall off plen f data i, 0 <= off -> process_packet off plen f = Ok (Some (data, i)) ->
  14 <= zlen f /\ (tagged f -> 18 <= zlen f) /\ legal_length off f (plen mod 65536) /\
  exists l ip pad, f = l ++ ip ++ pad /\ link_length off f (zlen l) /\ 140 <= zlen data <= 1500 /\
    In (header_words ip) [5; 7; 13; 15] /\ read_plain ip i data /\ (header_words ip = 5 -> datagram ip i data).
Proof.
  intros off plen f data i O E. destruct (received_sound _ _ _ _ _ O E) as (A & B & C & l & ip & pad & F & LL & W & R & D).
  split; [exact A|]. split; [exact B|]. split; [exact C|]. exists l, ip, pad. split; [exact F|]. split; [exact LL|]. split; [exact D|]. split; [exact W|]. split; [exact R|].
  intro W5. apply plain_datagram; auto.
Qed.
Print Assumptions C33_frame_data_partial.
(** Every such frame without IP options is taken. *)
Theorem C33_frame_taken_partial : forall off plen f data i l ip pad, 0 <= off -> 14 <= zlen f -> (tagged f -> 18 <= zlen f) -> legal_length off f (plen mod 65536) ->
  f = l ++ ip ++ pad -> link_length off f (zlen l) -> datagram ip i data -> header_words ip = 5 -> 140 <= zlen data <= 1500 ->
  process_packet off plen f = Ok (Some (data, i)).
Proof.
  intros off plen f data i l ip pad O L T LE F LL DG W DL. apply received_complete with l ip pad; auto; [rewrite W; cbn; auto|]. apply plain_datagram; auto.
Qed.
Print Assumptions C33_frame_taken_partial.
(** Memory: no byte outside of the frame is read, if the frame was captured whole or if at
    least 60 bytes of it were, and if it does not end within the VLAN tag (see below).  The
    links have headers of at most 16 bytes. *)
Theorem C33_frame_memory_partial : forall off plen f, 0 <= off <= 16 -> (tagged f -> 18 <= zlen f) -> (60 <= zlen f \/ plen mod 65536 <= zlen f) -> process_packet off plen f <> Fault.
Proof. exact received_whole. Qed.
Print Assumptions C33_frame_memory_partial.
(** The copy: the packet handed on is well-formed and its bytes are the data, whatever the
    array contained before. *)
Theorem C33_handed_on : forall old off plen f data i, zlen old = 1501 -> 0 <= off -> process_packet off plen f = Ok (Some (data, i)) ->
  packet_ok (deliver old data i) /\ payload (deliver old data i) = data /\ k_info (deliver old data i) = i /\ zlen (k_buf (deliver old data i)) = 1501.
Proof.
  intros old off plen f data i OL O E. destruct (received_sound _ _ _ _ _ O E) as (_ & _ & _ & l & ip & pad & _ & _ & _ & D & L).
  destruct (plain_ranges _ _ _ D). apply deliver_ok; auto; lia.
Qed.
Print Assumptions C33_handed_on.
Definition b (z : Z) : byte := zb z.
Definition be16 (z : Z) : bytes := [b (z / 256); b z].
Definition ipv4 (ihl proto : Z) (seg : bytes) : bytes :=
  [b (64 + ihl); x00] ++ be16 (4 * ihl + zlen seg) ++ [x00; x00; x00; x00; b 64; b proto; x00; x00] ++ [b 10; b 1; b 1; b 3] ++ [b 192; b 168; b 1; b 1] ++ repeat x01 (Z.to_nat (4 * ihl - 20)) ++ seg.
Definition ether (t : bytes) (ip : bytes) : bytes := repeat x02 12 ++ t ++ ip.
Definition udp1 : bytes := be16 40000 ++ be16 62201 ++ be16 0 ++ be16 0 ++ packet1.
Definition f_udp : bytes := ether (be16 2048) (ipv4 5 17 udp1).
Definition f_vlan : bytes := ether (be16 33024 ++ be16 7 ++ be16 2048) (ipv4 5 6 (be16 40000 ++ be16 80 ++ repeat x00 8 ++ [b 96] ++ repeat x00 11 ++ packet1)) ++ repeat x00 4.
Example C33_ex : process_packet 14 (zlen f_udp) f_udp = Ok (Some (packet1, mkPkt 17 167837955 40000 3232235777 62201)) /\
  process_packet 14 (zlen f_vlan) f_vlan = Ok (Some (packet1, mkPkt 6 167837955 40000 3232235777 80)) /\
  process_packet 14 (zlen f_udp) (removelast f_udp) = Ok None /\
  effects (incoming_spa toy nogpg cf0 en0 (deliver (repeat x07 (Z.to_nat 1501)) packet1 (mkPkt 17 167837955 40000 3232235777 62201)) (start [a0])) = Some [Grant 1 grant1].
Proof. ands; vm_compute; reflexivity. Qed.
Example C33_ex2 : (tagged f_udp -> 18 <= zlen f_udp) /\ 60 <= zlen f_udp /\ (tagged f_vlan /\ 18 <= zlen f_vlan).
Proof. split; [intros _|split; [|split]]; vm_compute; (discriminate || reflexivity). Qed.
Lemma udp1_datagram ihl : In ihl [5; 6; 7] -> datagram (ipv4 ihl 17 udp1) (mkPkt 17 167837955 40000 3232235777 62201) packet1 /\ header_words (ipv4 ihl 17 udp1) = ihl.
Proof.
  intro I. split; [|destruct I as [<-|[<-|[<-|[]]]]; vm_compute; reflexivity].
  exists (firstn (Z.to_nat (4 * ihl)) (ipv4 ihl 17 udp1)), udp1.
  destruct I as [<-|[<-|[<-|[]]]]; (split; [vm_compute; reflexivity|]); (split; [vm_compute; reflexivity|]); (split; [vm_compute; discriminate|]); (split; [vm_compute; reflexivity|]);
    (split; [vm_compute; reflexivity|]); (split; [vm_compute; reflexivity|]); (split; [vm_compute; reflexivity|]);
    (exists (firstn 8 udp1); split; [vm_compute; reflexivity|]; right; left; split; [reflexivity|]; split; [vm_compute; reflexivity|]; split; vm_compute; reflexivity).
Qed.
Example C33_ex3 : f_udp = repeat x02 12 ++ be16 2048 ++ ipv4 5 17 udp1 /\ datagram (ipv4 5 17 udp1) (mkPkt 17 167837955 40000 3232235777 62201) packet1 /\ header_words (ipv4 5 17 udp1) = 5.
Proof. split; [reflexivity|]. apply udp1_datagram. left. reflexivity. Qed.
(** A datagram with IP options is never taken if its header has 6, 8 to 12 or 14 words: the
    mask for the number of words is 0x15, not 0x0f.  No such frame opens a port. *)
Theorem C33_options_refuted : forall off plen f l ip pad i data, 0 <= off -> f = l ++ ip ++ pad -> link_length off f (zlen l) -> datagram ip i data ->
  ~ In (header_words ip) [5; 7; 13; 15] -> forall data' i', process_packet off plen f <> Ok (Some (data', i')).
Proof.
  intros off plen f l ip pad i data O F LL DG W data' i' E. destruct (received_sound _ _ _ _ _ O E) as (_ & _ & _ & l' & ip' & pad' & F' & LL' & W' & R & _).
  apply W. replace (header_words ip) with (header_words ip'); auto. pose proof (link_length_fun _ _ _ _ LL LL') as Z.
  assert (IP : 20 <= zlen ip) by (destruct DG as (h & seg & -> & _ & H20 & _); rewrite zlen_app; pose proof (zlen_nonneg seg); lia).
  assert (IP' : 20 <= zlen ip') by (destruct R as (h & seg & -> & H20 & _); rewrite zlen_app; pose proof (zlen_nonneg seg); lia).
  unfold header_words. pose proof (field_app l ip pad 0 1) as A. pose proof (field_app l' ip' pad' 0 1) as A'. rewrite <- F in A. rewrite <- F' in A'.
  assert (LN : length l = length l') by (unfold zlen in Z; lia). rewrite LN in A. unfold zlen in *. rewrite <- A, <- A' by lia. reflexivity.
Qed.
Print Assumptions C33_options_refuted.
Lemma ether_link ip : link_length 14 (ether (be16 2048) ip) (zlen (repeat x02 12 ++ be16 2048)).
Proof.
  assert (NT : ~ tagged (ether (be16 2048) ip)) by (unfold tagged, field; cbn -[Z.mul Z.add]; discriminate).
  exists 14, 2048. split; [right; auto|]. split; [right; split; auto|]. right. left. split; [lia|]. split; [lia|reflexivity].
Qed.
Example C33_options_ex : exists f l ip i, f = l ++ ip ++ [] /\ link_length 14 f (zlen l) /\ datagram ip i packet1 /\ header_words ip = 6 /\ process_packet 14 (zlen f) f = Ok None.
Proof.
  exists (ether (be16 2048) (ipv4 6 17 udp1)), (repeat x02 12 ++ be16 2048), (ipv4 6 17 udp1). eexists.
  split; [rewrite app_nil_r; reflexivity|]. split; [apply ether_link|]. split; [apply udp1_datagram; cbn; auto|]. split; vm_compute; reflexivity.
Qed.
(** With 7 words the header of the protocol is taken from the options: the data are not those
    of the datagram, and the ports neither. *)
Theorem C33_options_data_refuted : exists f l ip i data' i', f = l ++ ip ++ [] /\ link_length 14 f (zlen l) /\ datagram ip i packet1 /\
  process_packet 14 (zlen f) f = Ok (Some (data', i')) /\ data' <> packet1 /\ p_dport i = 62201 /\ p_dport i' <> 62201.
Proof.
  exists (ether (be16 2048) (ipv4 7 17 udp1)), (repeat x02 12 ++ be16 2048), (ipv4 7 17 udp1), (mkPkt 17 167837955 40000 3232235777 62201), udp1, (mkPkt 17 167837955 257 3232235777 257).
  split; [rewrite app_nil_r; reflexivity|]. split; [apply ether_link|]. split; [apply udp1_datagram; cbn; auto|]. split; [vm_compute; reflexivity|]. split; [vm_compute; discriminate|].
  split; [reflexivity|discriminate].
Qed.
Print Assumptions C33_options_data_refuted.
(** A frame of 60 bytes of which only 34 were captured: the ports are read behind them. *)
Theorem C33_header_refuted : exists f, zlen f = 34 /\ process_packet 14 60 f = Fault.
Proof. exists (ether (be16 2048) ([b 69; x00] ++ be16 20 ++ [x00; x00; x00; x00; b 64; b 17] ++ repeat x00 10)). split; vm_compute; reflexivity. Qed.
Print Assumptions C33_header_refuted.
(** A captured frame that ends within the VLAN tag. *)
Theorem C33_vlan_refuted : exists f, zlen f = 14 /\ process_packet 14 (zlen f) f = Fault.
Proof. exists (ether (be16 33024) []). split; vm_compute; reflexivity. Qed.
Print Assumptions C33_vlan_refuted.

(** ** C53 Datagrams of the UDP server *)
(** The packet handed on is well-formed.  Its bytes are those received; if there is a NUL
    among them, only up to that one. *)
Theorem C53_datagram_partial : forall old m src sport port p, zlen old = 1501 -> zlen m <= 1500 -> 0 <= src < 4294967296 -> udp_receive old (Some m) src sport port = Ok p ->
  packet_ok p /\ k_len p = zlen m /\ k_info p = mkPkt 17 src sport 0 port /\ zlen (k_buf p) = 1501 /\
  ((no_nul m /\ payload p = m) \/ exists a b stale, m = a ++ x00 :: b /\ no_nul a /\ payload p = a ++ x00 :: stale).
Proof. exact udp_ok. Qed.
Print Assumptions C53_datagram_partial.
(** The bytes of older packets that may follow the NUL are never used: what a packet carries
    does not depend on them. *)
Theorem C53_no_old_bytes : forall cf old old' m src sport port p p' data, zlen old = 1501 -> zlen old' = 1501 -> zlen m <= 1500 -> 0 <= src < 4294967296 ->
  udp_receive old (Some m) src sport port = Ok p -> udp_receive old' (Some m) src sport port = Ok p' ->
  data_ok data -> carries cf p data -> carries cf p' data.
Proof.
  intros cf old old' m src sport port p p' data O O' L SR E E' D C.
  destruct (udp_ok _ _ _ _ _ _ O L SR E) as (_ & KL & _ & _ & P). destruct (udp_ok _ _ _ _ _ _ O' L SR E') as (_ & KL' & _ & _ & P').
  destruct P as [[N P]|(a & r & s & M & N & P)], P' as [[N' P']|(a' & r' & s' & M' & N' & P')].
  - assert (HT : is_http cf p <-> is_http cf p') by (unfold is_http; rewrite P, P'; tauto).
    destruct C as [(H & path & (g & rest & Q) & R)|[H R]]; [left|right]; (split; [tauto|]); [|congruence]. exists path. split; auto. exists g, rest. rewrite P'. rewrite P in Q. exact Q.
  - exfalso. apply N. rewrite M'. apply in_or_app. right. left. reflexivity.
  - exfalso. apply N'. rewrite M. apply in_or_app. right. left. reflexivity.
  - assert (a = a'). { rewrite <- (cstr_app_nul a r N), <- (cstr_app_nul a' r' N'). congruence. } subst a'. exact (carries_prefix cf p p' a s s' data N P P' D C).
Qed.
Print Assumptions C53_no_old_bytes.
Definition received_by (r : option bytes) : outcome packet := udp_receive (repeat x07 (Z.to_nat 1501)) r 167837955 40000 62201.
Example C53_ex : exists p, received_by (Some packet1) = Ok p /\ payload p = packet1 /\ effects (incoming_spa toy nogpg cf0 en0 p (start [a0])) <> Some [].
Proof.
  exists (match received_by (Some packet1) with Ok p => p | Fault => pkt [] end). split; [vm_compute; reflexivity|]. split; vm_compute; [reflexivity|discriminate].
Qed.
(** If recvfrom fails (the socket is non-blocking), a NUL is stored in front of the array. *)
Theorem C53_failure_refuted : received_by None = Fault.
Proof. reflexivity. Qed.
Print Assumptions C53_failure_refuted.
(** Bytes of an older packet in the packet handed on. *)
Theorem C53_old_bytes_refuted : exists old m p, udp_receive old (Some m) 167837955 40000 62201 = Ok p /\ zlen old = 1501 /\ payload p <> m.
Proof.
  exists (repeat x07 (Z.to_nat 1501)), [x00; x41]. eexists. split; [reflexivity|]. split; [vm_compute; reflexivity|]. vm_compute. discriminate.
Qed.
Print Assumptions C53_old_bytes_refuted.
