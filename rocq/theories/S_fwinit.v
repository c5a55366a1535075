(** The vocabulary of the properties of starting and stopping the firewall. *)
From Verif Require Import Bytes S_text S_access S_incoming M_util M_packet M_incoming M_cycle M_access M_fw M_fwinit S_fw.
From Coq Require Import Init.Byte List ZArith Bool.
Import ListNotations.
Open Scope Z_scope.

(** A chain configuration that is in use *)
Definition in_use (c : chain) : Prop := c_target c <> [].
(** Chain [n] of table [t] is one of the daemon's *)
Definition own (cs : list chain) (t n : bytes) : Prop := exists c, In c cs /\ in_use c /\ t = c_table c /\ n = c_to c.
(** Rule [r] in chain [n] of table [t] is one of the daemon's jump rules *)
Definition jumps (cs : list chain) (t n : bytes) (r : rule) : Prop := exists c, In c cs /\ in_use c /\ t = c_table c /\ n = c_from c /\ r = [$ "-j"; c_to c].
(** [stripped cs fw fw']: [fw'] is [fw] without the daemon's chains and jump rules; all other rules
    are there, in their order. *)
Definition stripped (cs : list chain) (fw fw' : firewall) : Prop :=
  forall t n, (own cs t n -> fw' t n = None) /\
    (~ own cs t n -> match fw t n with
                     | None => fw' t n = None
                     | Some rs => exists rs', fw' t n = Some rs' /\ without (jumps cs t n) rs rs'
                     end).
(** The two firewalls differ in the daemon's chains and jump rules only. *)
Definition same_rest (cs : list chain) (fw fw' : firewall) : Prop := exists g, stripped cs fw g /\ stripped cs fw' g.

(** A rule that leads to chain [x] *)
Definition refers (r : rule) (x : bytes) : Prop := exists a b, r = a ++ [$ "-j"; x] ++ b \/ r = a ++ [$ "-g"; x] ++ b.
(** iptables takes a chain to be in use only if there is a rule that leads to it. *)
Definition removes (K : iptables) : Prop :=
  forall fw t c, referenced K fw t c = true -> exists n rs r, fw t n = Some rs /\ In r rs /\ refers r c.
(** Only the daemon's jump rules lead to its chains, at most ten to each. *)
Definition own_rule_dec := list_eq_dec (list_eq_dec Byte.byte_eq_dec).
Definition removable (cs : list chain) (fw : firewall) : Prop :=
  forall c, In c cs -> in_use c ->
    (forall n rs r, fw (c_table c) n = Some rs -> In r rs -> refers r (c_to c) -> n = c_from c /\ r = [$ "-j"; c_to c]) /\
    (forall rs, fw (c_table c) (c_from c) = Some rs -> (count_occ own_rule_dec rs [$ "-j"; c_to c] <= 10)%nat).
(** Each chain configuration is unused, or its names fit. *)
Definition fitting (exe : bytes) (cs : list chain) : Prop :=
  forall c, In c cs -> (c_target c = [] /\ c_table c = [] /\ c_from c = [] /\ c_to c = []) \/ names_fit exe c.

(** ** What the daemon does between start and end *)
Inductive event :=
| Make                                                             (* makes its chains *)
| Drop                                                             (* removes its chains *)
| Request (resolve : bytes -> option bytes) (nc : nat_conf) (d : spa_data) (now : Z)
| Pass (all : bool) (now : Z).                                     (* removes expired rules *)
Definition happen (K : iptables) (cf : fwconf) (ev : event) (s : state machine) : outcome (state machine) :=
  let '(cs, w) := s in
  match ev with
  | Make => bind (create_fw_chains machine (run_iptables K) cf cs w) (fun x => Ok (cs, snd x))
  | Drop => bind (delete_all_chains machine (run_iptables K) cf cs w) (fun w => Ok (cs, w))
  | Request resolve nc d now => process_spa_request machine (run_iptables K) cf resolve nc d now s
  | Pass all now => check_firewall_rules machine (run_iptables K) cf all now s
  end.
Fixpoint history (K : iptables) (cf : fwconf) (evs : list event) (s : state machine) : outcome (state machine) :=
  match evs with
  | [] => Ok s
  | ev :: r => bind (happen K cf ev s) (history K cf r)
  end.
(** A request for access: the source and the destination are words that fit, the ports are a
    list; for NAT, the internal address is given as such. *)
Definition decent (cf : fwconf) (cs : list chain) (ev : event) : Prop :=
  match ev with
  | Request _ nc d now =>
      word (d_use d) /\ zlen (d_use d) <= 15 /\ word (d_pkt_dst d) /\ zlen (d_pkt_dst d) <= 15 /\
      0 <= now + d_timeout d < 4294967296 /\ zlen (n_snat_ip nc) <= 15 /\ zlen (f_snat_ip cf) <= 15 /\
      in_use (chain_at 0 cs) /\
      (n_snat nc || f_snat cf = true -> in_use (chain_at 4 cs) /\ in_use (chain_at 5 cs)) /\
      exists proto port pl, requested (d_remain d) ((proto, port) :: pl) /\
        (wants_nat nc (d_type d) -> exists ip to, nat_goal nc (match d_nat d with Some n => n | None => [] end) ip to)
  | _ => True
  end.
(** What the start needs of iptables: it accepts the daemon's probes in the chain of [c], shows
    the comment of the second one, and shows all rules without zero bytes. *)
Definition probe (c : chain) : rule := [$ "-s"; $ "127.0.0.2"; $ "-p"; $ "udp"; $ "-j"; c_target c].
Definition probe_comment (c : chain) : rule := [$ "-s"; $ "127.0.0.2"; $ "-m"; $ "comment"; $ "--comment"; $ "__TMPCOMMENT__"; $ "-j"; c_target c].
Definition probes_work (K : iptables) (cs : list chain) (fw : firewall) (c : chain) : Prop :=
  legal K (probe c) = true /\ legal K (probe_comment c) = true /\ unmarked (c_from c) /\
  (forall r, (exists rs, fw (c_table c) (c_from c) = Some rs /\ In r rs) \/ jumps cs (c_table c) (c_from c) r \/ r = probe_comment c -> ~ In x00 (show K r)) /\
  exists a b, show K (probe_comment c) = a ++ $ "__TMPCOMMENT__" ++ b /\
    zlen (heading K (c_from c)) + zlen (show K (probe_comment c)) <= 1000.
(** The chain from which the daemon's chain [c] is reached is there, and is not the daemon's. *)
Definition based (cs : list chain) (fw : firewall) (c : chain) : Prop :=
  in_use c /\ fw (c_table c) (c_from c) <> None /\ ~ own cs (c_table c) (c_from c).
