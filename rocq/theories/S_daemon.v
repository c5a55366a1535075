(** The vocabulary of the end-to-end property: from received packets to the rules of the
    firewall.  The specifications of packets (S_incoming) and of rules (S_fw) are put together. *)
From Verif Require Import Bytes S_text S_access S_incoming M_util M_codec M_packet M_incoming M_cycle M_access M_fw M_fwinit M_daemon S_fw S_fwinit.
From Coq Require Import Init.Byte List ZArith Bool.
Import ListNotations.
Open Scope Z_scope.

(** A stanza as the access file may give it: its NAT addresses are addresses, its times fit. *)
Definition usable (a : stanza) : Prop :=
  stanza_ok a /\ NoDup (a_open a) /\ 0 <= a_fw_timeout a < 1073741824 /\ 0 <= a_max_timeout a < 1073741824 /\
  zlen (n_snat_ip (a_nat a)) <= 15 /\
  (n_force (a_nat a) = true -> address_text (n_force_ip (a_nat a)) /\ 0 <= n_force_port (a_nat a) <= 65535).
(** The firewall settings: the names fit, the chains needed are in use. *)
Definition firewall_ok (fc : fwconf) (cs : list chain) (acc : list stanza) : Prop :=
  fitting (f_cmd fc) cs /\ zlen (f_snat_ip fc) <= 15 /\ in_use (chain_at 0 cs) /\
  forall a, In a acc -> n_snat (a_nat a) || f_snat fc = true -> in_use (chain_at 4 cs) /\ in_use (chain_at 5 cs).
Definition turn_ok (fc : fwconf) (cs : list chain) (x : turn) : Prop :=
  match x with
  | Receive en p later => packet_ok p /\ 0 <= later < 2147483648
  | Reread acc => Forall usable acc /\ firewall_ok fc cs acc
  | _ => True
  end.
(** Host names are resolved to addresses. *)
Definition resolves (resolve : bytes -> option bytes) : Prop := forall h ip, resolve h = Some ip -> address_text ip.

(** The internal address and port of a request with NAT: those of the stanza; or those of the
    request, which may give a host name if names are looked up.  Of an address, 15 characters are
    used. *)
Definition nat_target (fc : fwconf) (resolve : bytes -> option bytes) (nc : nat_conf) (nat ip : bytes) (to : Z) : Prop :=
  if n_force nc then ip = n_force_ip nc /\ to = n_force_port nc
  else exists host q, nat = host ++ [","%byte] ++ q /\ all_digits q /\ to = decimal q /\
         ((ip = ztake 15 host /\ exists a b c d, ipv4_text host a b c d) \/ (f_nat_dns fc = true /\ resolve host = Some ip)).
(** Protocol and port that the stanza permits *)
Definition permitted (a : stanza) (q : Z * Z) : Prop := ~ In q (a_restrict a) /\ (a_open a <> [] -> In q (a_open a)).
(** The rules that may be made in the stanza [a] for the request [d], granted at the time [now] *)
Definition rule_for (fc : fwconf) (resolve : bytes -> option bytes) (cs : list chain) (a : stanza) (d : spa_data) (now : Z)
    (t n : bytes) (r : rule) : Prop :=
  let dst := if f_use_dst fc then d_pkt_dst d else $ "0.0.0.0/0" in
  let e := now + d_timeout d in
  exists pl, requested (d_remain d) pl /\ Forall (permitted a) pl /\
    ((~ wants_nat (a_nat a) (d_type d) /\
      exists proto port, In (proto, port) pl /\
        ((is_chain (chain_at 0 cs) t n /\ opens (d_use d) dst proto port e (c_target (chain_at 0 cs)) r) \/
         (is_chain (chain_at 1 cs) t n /\ answers (d_use d) dst proto port e (c_target (chain_at 1 cs)) r))) \/
     (wants_nat (a_nat a) (d_type d) /\
      exists proto port more ip to i how, pl = (proto, port) :: more /\
        nat_target fc resolve (a_nat a) (match d_nat d with Some x => x | None => [] end) ip to /\ snat_how fc (a_nat a) port i how /\
        ((local_nat (d_type d) /\ is_chain (chain_at 0 cs) t n /\ opens (d_use d) dst proto to e (c_target (chain_at 0 cs)) r) \/
         (~ local_nat (d_type d) /\ is_chain (chain_at 2 cs) t n /\ forwards (n_forward_all (a_nat a)) (d_use d) proto to e (c_target (chain_at 2 cs)) r) \/
         (n_no_dnat (a_nat a) = false /\ is_chain (chain_at 3 cs) t n /\
            redirects (n_forward_all (a_nat a)) (d_use d) dst proto port e (c_target (chain_at 3 cs)) ip to r) \/
         (n_snat (a_nat a) || f_snat fc = true /\ is_chain (chain_at i cs) t n /\
            translates (n_forward_all (a_nat a)) (d_use d) proto ip to e (c_target (chain_at i cs)) how r)))).
(** The packet of an arrival is let by one of the stanzas in force then, and [r] is a rule that
    this stanza makes for it, at the time it does, until [e]. *)
Definition authorizes (H : hashes) (G : gpg) (cf : conf) (fc : fwconf) (resolve : bytes -> option bytes) (cs : list chain)
    (x : arrival) (t n : bytes) (r : rule) (e : Z) : Prop :=
  let '(acc, en, p, later) := x in
  exists data fwd i a d, carries cf p data /\ data_ok data /\ forwarded_read cf p fwd /\
    nth_error acc i = Some a /\ lets H G cf (e_now en) p fwd data a (1 + Z.of_nat i) (Grant (1 + Z.of_nat i) d) /\
    e = later + d_timeout d /\ rule_for fc resolve cs a d later t n r.
(** The stanzas in force at some time of the history: those of the start or those read since; of
    some of them the expiry may have been noted. *)
Definition in_force (first : list stanza) (l : list turn) (acc : list stanza) : Prop :=
  exists given, (given = first \/ In (Reread given) l) /\ Forall2 same_stanza given acc.
(** The rule was in the firewall. *)
Definition was (fw : firewall) (t n : bytes) (r : rule) : Prop := exists rs, fw t n = Some rs /\ In r rs.
(** [r] carries the comment of the expiry [e], and iptables shows it. *)
Definition commented (r : rule) (e : Z) : Prop :=
  exists a x b, numeral e x /\ r = a ++ [$ "-m"; $ "comment"; $ "--comment"; mark ++ x] ++ b.
Definition comments_shown (K : iptables) (cs : list chain) (fw : firewall) : Prop :=
  forall t n r e, own cs t n -> was fw t n r -> commented r e -> expires_at (show K r) e.
