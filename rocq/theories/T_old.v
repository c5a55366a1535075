(** Property theorems: the daemon with an iptables without -C. *)
From Verif Require Import P_util2 Bytes S_text S_access S_incoming M_util M_message M_codec M_access M_cycle M_incoming M_fw S_fw
  P_bytes P_access P_incoming5 P_fw P_fw2 P_fw5 P_fw6 P_fw7 P_fw8 P_fw9 P_fw10 P_fw11 T_fw M_extcmd S_extcmd M_old S_old P_old P_old2 P_old3 P_old4 P_old5.
From Coq Require Import Init.Byte List ZArith Bool Lia.
Import ListNotations.
Open Scope Z_scope.

(** ** A concrete iptables for the examples, which lists rules the way the real one does *)
Fixpoint option_of (name : bytes) (r : rule) : option bytes :=
  match r with
  | a :: ((b :: _) as t) => if bseq a name then Some b else option_of name t
  | _ => None
  end.
Definition opt (name : bytes) (r : rule) (f : bytes -> bytes) : bytes := match option_of name r with Some x => f x | None => [] end.
Definition dflt (name : bytes) (r : rule) (x : bytes) : bytes := match option_of name r with Some y => y | None => x end.
Definition proto_name (x : bytes) : bytes := if bseq x ($ "6") then $ "tcp" else if bseq x ($ "17") then $ "udp" else x.
Definition show9 (r : rule) : bytes :=
  $ "   " ++ dflt ($ "-j") r [] ++ $ "     " ++ proto_name (dflt ($ "-p") r ($ "all")) ++ $ "  --  " ++ dflt ($ "-s") r ($ "0.0.0.0/0") ++ $ "         "
  ++ dflt ($ "-d") r ($ "0.0.0.0/0") ++ $ "         "
  ++ opt ($ "--dport") r (fun x => $ "dpt:" ++ x ++ $ " ") ++ opt ($ "--sport") r (fun x => $ "spt:" ++ x ++ $ " ")
  ++ opt ($ "--comment") r (fun x => $ "/* " ++ x ++ $ " */ ")
  ++ opt ($ "--to-destination") r (fun x => $ "to:" ++ x) ++ opt ($ "--to-source") r (fun x => $ "to:" ++ x).
Definition ipt9 : iptables := mkIpt (legal ipt0) show9 (heading ipt0) (number ipt0) (trouble ipt0) (referenced ipt0).
Lemma ipt9_ok : iptables_ok ipt9.
Proof. exact ipt0_ok. Qed.
Example show9_ex : show ipt9 r22 = $ "   ACCEPT     tcp  --  10.0.0.1         0.0.0.0/0         dpt:22 /* _exp_1030 */ ".
Proof. vm_compute. reflexivity. Qed.
Definition serve (cf : fwconf) (nc : nat_conf) (d : spa_data) (now : Z) (s : outcome (state machine)) : outcome (state machine) :=
  and_then s (process_spa_request_old machine (run_iptables ipt9) cf (fun _ => None) nc d now).

(** ** C95 An iptables without -C *)
(** An access request without NAT, whatever happens to the runs of iptables: no rule is lost or
    moved, and only the rules of the request are made, in the chains of the configuration.  If
    iptables does its work, then afterwards each requested protocol and port has in the input
    chain its rule, or a rule of which the line in the listing tells of the source, the protocol,
    the port, the expiry and the target. *)
Theorem C95_access_partial : forall K cf resolve nc d now pl cs fw fs, iptables_ok K ->
  word (d_use d) -> zlen (d_use d) <= 15 -> word (d_pkt_dst d) -> zlen (d_pkt_dst d) <= 15 ->
  0 <= now + d_timeout d < 4294967296 ->
  ~ wants_nat nc (d_type d) -> requested (d_remain d) pl ->
  names_fit (f_cmd cf) (chain_at 0 cs) -> (c_to (chain_at 1 cs) = [] \/ names_fit (f_cmd cf) (chain_at 1 cs)) ->
  (forall x, numeral (now + d_timeout d) x -> ~ holds (x ++ $ " ") (heading K (c_to (chain_at 0 cs)))) ->
  let dst := if f_use_dst cf then d_pkt_dst d else $ "0.0.0.0/0" in
  exists cs' fw' fs',
    process_spa_request_old machine (run_iptables K) cf resolve nc d now (cs, (fw, fs)) = Ok (cs', (fw', fs')) /\
    Forall2 same_names cs cs' /\
    grown (access_chains (chain_at 0 cs) (chain_at 1 cs)) (access_rules (d_use d) dst (now + d_timeout d) (chain_at 0 cs) (chain_at 1 cs) pl) fw fw' /\
    (fs = [] -> fs' = [] /\ forall proto port, In (proto, port) pl ->
       (forall r, opens (d_use d) dst proto port (now + d_timeout d) (c_target (chain_at 0 cs)) r -> legal K r = true) ->
       exists r, (opens (d_use d) dst proto port (now + d_timeout d) (c_target (chain_at 0 cs)) r \/
                  told K cf (d_use d) dst proto port (now + d_timeout d) (chain_at 0 cs) r) /\ present fw' (chain_at 0 cs) r).
Proof.
  intros K cf resolve nc d now pl cs fw fs KO W1 L1 W2 L2 HE NN RQ N0 N1 NH dst.
  exact (spa_access_old K KO cf resolve nc d now W1 L1 W2 L2 HE pl cs fw fs NN RQ N0 N1 NH).
Qed.
Print Assumptions C95_access_partial.

(** The rule is made or not by the first line of the listing that has the expiry: if that line
    tells of the access, the chain stays as it is; if not, the rule is added. *)
Theorem C95_once_partial : forall K cf resolve nc d now proto port cs fw rs hs l, iptables_ok K ->
  word (d_use d) -> zlen (d_use d) <= 15 -> word (d_pkt_dst d) -> zlen (d_pkt_dst d) <= 15 ->
  0 <= now + d_timeout d < 4294967296 ->
  ~ wants_nat nc (d_type d) -> requested (d_remain d) [(proto, port)] ->
  names_fit (f_cmd cf) (chain_at 0 cs) -> c_to (chain_at 1 cs) = [] -> c_from (chain_at 0 cs) <> c_to (chain_at 0 cs) ->
  fw (c_table (chain_at 0 cs)) (c_to (chain_at 0 cs)) = Some rs -> Forall (fun r => ~ In x0a (show K r)) rs ->
  text_lines (heading K (c_to (chain_at 0 cs))) hs -> first_with (now + d_timeout d) l (hs ++ shown_lines K 1 rs) ->
  let dst := if f_use_dst cf then d_pkt_dst d else $ "0.0.0.0/0" in
  let there := tells (d_use d) (if f_use_dst cf then Some dst else None) proto port (now + d_timeout d) (c_target (chain_at 0 cs)) l in
  exists cs' fw', process_spa_request_old machine (run_iptables K) cf resolve nc d now (cs, (fw, [])) = Ok (cs', (fw', [])) /\
    exists rs', fw' (c_table (chain_at 0 cs)) (c_to (chain_at 0 cs)) = Some rs' /\
      (there -> rs' = rs) /\
      (~ there -> forall r, opens (d_use d) dst proto port (now + d_timeout d) (c_target (chain_at 0 cs)) r -> legal K r = true ->
         rs' = if f_prepend cf then r :: rs else rs ++ [r]).
Proof.
  intros K cf resolve nc d now proto port cs fw rs hs l KO W1 L1 W2 L2 HE NN RQ N0 N1 FT HR SN TL FW dst there.
  exact (spa_once K KO cf resolve nc d now W1 L1 W2 L2 HE proto port cs fw rs hs l NN RQ N0 N1 FT HR SN TL FW).
Qed.
Print Assumptions C95_once_partial.

(** A NAT request, whatever happens to the runs of iptables: no rule is lost or moved, and only
    the rules of the request are made.
    Missing: that the rules are there afterwards, which is false, see below. *)
Theorem C95_nat_partial : forall K cf resolve nc d now pl proto port ip to cs fw fs,
  word (d_use d) -> zlen (d_use d) <= 15 -> word (d_pkt_dst d) -> zlen (d_pkt_dst d) <= 15 ->
  0 <= now + d_timeout d < 4294967296 ->
  wants_nat nc (d_type d) -> requested (d_remain d) ((proto, port) :: pl) ->
  nat_goal nc (match d_nat d with Some n => n | None => [] end) ip to ->
  (local_nat (d_type d) -> names_fit (f_cmd cf) (chain_at 0 cs)) ->
  (forall j, (j = 2 \/ j = 3)%nat -> c_to (chain_at j cs) = [] \/ names_fit (f_cmd cf) (chain_at j cs)) ->
  (n_snat nc || f_snat cf = true -> forall j, (j = 4 \/ j = 5)%nat -> names_fit (f_cmd cf) (chain_at j cs)) ->
  zlen (n_snat_ip nc) <= 15 -> zlen (f_snat_ip cf) <= 15 ->
  let src := d_use d in
  let dst := if f_use_dst cf then d_pkt_dst d else $ "0.0.0.0/0" in
  let e := now + d_timeout d in
  exists i how cs' fw' fs', snat_how cf nc port i how /\
    process_spa_request_old machine (run_iptables K) cf resolve nc d now (cs, (fw, fs)) = Ok (cs', (fw', fs')) /\
    Forall2 same_names cs cs' /\
    grown (any_chain cs) (nat_rules cf nc (d_type d) cs src dst proto port ip to e i how) fw fw' /\
    (fs = [] -> fs' = []).
Proof.
  intros K cf resolve nc d now pl proto port ip to cs fw fs W1 L1 W2 L2 HE WN RQ NG N0 N23 N45 LA LB src dst e.
  exact (spa_nat_old K cf resolve nc d now W1 L1 W2 L2 HE pl proto port ip to cs fw fs WN RQ NG N0 N23 N45 LA LB).
Qed.
Print Assumptions C95_nat_partial.

(** Requests that are not lists of protocols and ports change nothing. *)
Theorem C95_malformed : forall W exec cf resolve nc d now s, small_numbers (d_remain d) -> (forall pl, ~ requested (d_remain d) pl) ->
  process_spa_request_old W exec cf resolve nc d now s = Ok s.
Proof.
  intros W exec cf resolve nc d now s SM N. unfold process_spa_request_old. destruct (expand_acc_port_list (d_remain d)) as [pl|] eqn:E; auto.
  exfalso. exact (N pl (expand_port_list_inv _ _ SM E)).
Qed.
Print Assumptions C95_malformed.

(** ** Examples *)
Definition start9 : outcome (state machine) := Ok ([chain0], (fw0, [])).
Definition ask (ports : bytes) (s : outcome (state machine)) : outcome (state machine) :=
  serve conf0 nat0 (req ($ "10.0.0.1") ports 30) 1000 s.
Lemma requested_one : requested ($ "tcp/22") [(6, 22)].
Proof.
  exists [$ "tcp/22"]. split.
  - exists [$ "tcp/22"]. split; [reflexivity|]. split; [discriminate|].
    split; [repeat (apply Forall_cons; [apply no_byte; reflexivity|]); apply Forall_nil|].
    apply Forall2_cons; [|apply Forall2_nil]. exists []. split; [reflexivity|]. split; [constructor|]. intro X. rewrite <- isspace_blank in X. discriminate.
  - apply Forall2_cons; [split; [apply entry_short; [discriminate|reflexivity]|discriminate]|]. apply Forall2_nil.
Qed.

Lemma num1030 : numeral 1030 ($ "1030").
Proof. replace ($ "1030") with (dec 1030) by (vm_compute; reflexivity). apply dec_num. lia. Qed.
Example C95_once_ex :
  requested (d_remain (req ($ "10.0.0.1") ($ "tcp/22") 30)) [(6, 22)] /\ ~ wants_nat nat0 1 /\
  names_fit ($ "/sbin/iptables") (chain_at 0 [chain0]) /\ c_to (chain_at 1 [chain0]) = [] /\
  ~ In x0a (show ipt9 r22) /\ text_lines (heading ipt9 ($ "FWKNOP_INPUT")) [$ "Chain FWKNOP_INPUT"] /\
  (exists l, shown_lines ipt9 1 [r22] = [l] /\ first_with 1030 l ([$ "Chain FWKNOP_INPUT"] ++ shown_lines ipt9 1 [r22]) /\
     tells ($ "10.0.0.1") None 6 22 1030 ($ "ACCEPT") l) /\
  rules_of (ask ($ "tcp/22") start9) ($ "filter") ($ "FWKNOP_INPUT") = Some [r22] /\
  rules_of (ask ($ "tcp/22") (ask ($ "tcp/22") start9)) ($ "filter") ($ "FWKNOP_INPUT") = Some [r22] /\
  rules_of (ask ($ "tcp/80") (ask ($ "tcp/22") start9)) ($ "filter") ($ "FWKNOP_INPUT") = Some [r22; allow ($ "10.0.0.1") ($ "80") ($ "1030")].
Proof.
  split; [exact requested_one|]. split; [intros [[H|H]|[H|[H|H]]]; discriminate|]. split; [exact chain0_fit|]. split; [reflexivity|].
  split; [apply no_byte; vm_compute; reflexivity|]. split.
  { split; [vm_compute; reflexivity|]. constructor; [|constructor]. apply no_byte. vm_compute. reflexivity. }
  split; [|ands; vm_compute; reflexivity].
  exists ($ "1    ACCEPT     tcp  --  10.0.0.1         0.0.0.0/0         dpt:22 /* _exp_1030 */ ").
  split; [vm_compute; reflexivity|].
  assert (NUM : numeral 1030 ($ "1030")) by exact num1030.
  assert (NUM2 : numeral 22 ($ "22")).
  { replace ($ "22") with (dec 22) by (vm_compute; reflexivity). apply dec_num. lia. }
  split.
  - exists [$ "Chain FWKNOP_INPUT"], [], ($ "1030"). split; [vm_compute; reflexivity|].
    split. { apply Forall_cons; [|apply Forall_cons; [|constructor]]; (split; [vm_compute; reflexivity|]; split; [apply no_byte; vm_compute; reflexivity|]; cbn; ands; discriminate). }
    split; [vm_compute; reflexivity|]. split; [exact NUM|].
    split; [apply has_holds; vm_compute; reflexivity|].
    intros y [<-|[]] H. apply has_holds in H. vm_compute in H. discriminate.
  - split; [apply has_holds; vm_compute; reflexivity|]. split; [apply has_holds; vm_compute; reflexivity|].
    split; [intros _; exists ($ "tcp"); split; [left; auto|apply has_holds; vm_compute; reflexivity]|].
    split; [intros _; exists ($ "22"); split; [exact NUM2|apply has_holds; vm_compute; reflexivity]|].
    split; [|exact I]. exists ($ "1030"). split; [exact NUM|]. apply has_holds; vm_compute; reflexivity.
Qed.
Example C95_access_ex :
  (forall x, numeral 1030 x -> ~ holds (x ++ $ " ") (heading ipt9 (c_to (chain_at 0 [chain0])))) /\
  rules_of (ask ($ "tcp/22,udp/53") start9) ($ "filter") ($ "FWKNOP_INPUT") =
    Some [r22; [$ "-p"; $ "17"; $ "-s"; $ "10.0.0.1"; $ "-d"; $ "0.0.0.0/0"; $ "--dport"; $ "53"; $ "-m"; $ "comment"; $ "--comment"; $ "_exp_1030"; $ "-j"; $ "ACCEPT"]] /\
  rules_of (ask ($ "tcp/22,udp/53") start9) ($ "filter") ($ "INPUT") = Some [[$ "-j"; $ "FWKNOP_INPUT"]; [$ "-j"; $ "ACCEPT"]].
Proof.
  split; [|split; vm_compute; reflexivity]. intros x NX. assert (x = $ "1030") as ->.
  { apply (numeral_unique 1030); [lia|exact NX|exact num1030]. }
  intro H. apply has_holds in H. vm_compute in H. discriminate.
Qed.

(** Claim: a request whose rules are all there makes no rule.  Only the first line of the listing
    with the expiry is looked at.  The request tcp/22,tcp/80 twice in the same second: the first
    such line is that of port 22, so the rule of port 80 is made again. *)
Theorem C95_duplicate_refuted : exists s,
  ask ($ "tcp/22,tcp/80") start9 = s /\
  rules_of s ($ "filter") ($ "FWKNOP_INPUT") = Some [r22; allow ($ "10.0.0.1") ($ "80") ($ "1030")] /\
  rules_of (ask ($ "tcp/22,tcp/80") s) ($ "filter") ($ "FWKNOP_INPUT") =
    Some [r22; allow ($ "10.0.0.1") ($ "80") ($ "1030"); allow ($ "10.0.0.1") ($ "80") ($ "1030")].
Proof. eexists. split; [reflexivity|]. split; vm_compute; reflexivity. Qed.
Print Assumptions C95_duplicate_refuted.

Definition out9 : chain := mkChain ($ "ACCEPT") ($ "filter") ($ "OUTPUT") 1 ($ "FWKNOP_OUTPUT") 0 0.
Definition fw9 : firewall := fun t c =>
  if bseq t ($ "filter") then if bseq c ($ "INPUT") || bseq c ($ "OUTPUT") then Some [] else None else None.
Definition back (port : bytes) : rule :=
  [$ "-p"; $ "6"; $ "-d"; $ "10.0.0.1"; $ "-s"; $ "0.0.0.0/0"; $ "--sport"; port; $ "-m"; $ "comment"; $ "--comment"; $ "_exp_1030"; $ "-j"; $ "ACCEPT"].
(** The same claim for the output chain.  Its rule has the source port and is listed with spt:,
    but the search is for dpt:, so the rule is never found.  The request tcp/22 twice in the same
    second, with ENABLE_IPT_OUTPUT: one rule in the input chain, two in the output chain. *)
Theorem C95_output_refuted : exists s,
  ask ($ "tcp/22") (ask ($ "tcp/22") (Ok ([chain0; out9], (fw9, [])))) = s /\
  rules_of s ($ "filter") ($ "FWKNOP_INPUT") = Some [r22] /\
  rules_of s ($ "filter") ($ "FWKNOP_OUTPUT") = Some [back ($ "22"); back ($ "22")].
Proof. eexists. split; [reflexivity|]. split; vm_compute; reflexivity. Qed.
Print Assumptions C95_output_refuted.

Definition dnat_to (dst host : bytes) : rule :=
  [$ "-p"; $ "6"; $ "-s"; $ "10.0.0.1"; $ "-d"; dst; $ "--dport"; $ "22"; $ "-m"; $ "comment"; $ "--comment"; $ "_exp_1030"; $ "-j"; $ "DNAT"; $ "--to-destination"; host].
Definition nat_start : outcome (state machine) := Ok (nat_chains, (fw2, [])).
Definition nat_ask (host : bytes) (s : outcome (state machine)) : outcome (state machine) := serve conf0 nat0 (nat_req host) 1000 s.
Example C95_nat_ex :
  wants_nat nat0 2 /\ requested (d_remain (nat_req ($ "192.168.1.10,80"))) [(6, 22); (17, 53)] /\ nat_goal nat0 ($ "192.168.1.10,80") ($ "192.168.1.10") 80 /\
  (forall j, (j = 2 \/ j = 3)%nat -> names_fit ($ "/sbin/iptables") (chain_at j nat_chains)) /\
  rules_of (nat_ask ($ "192.168.1.10,80") nat_start) ($ "nat") ($ "FWKNOP_PREROUTING") = Some [dnat_to ($ "0.0.0.0/0") ($ "192.168.1.10:80")].
Proof.
  destruct C37_nat_ex as (A & B & C & D & _). ands; auto.
Qed.
(** Claim: after a NAT request the rule that redirects to its internal host is there.  The text
    for the internal address is written over the text for the destination, which is only looked
    for with ENABLE_DESTINATION_RULE; the text meant for it stays empty, and an empty text is in
    every line.  Two NAT requests in the same second, to port 80 of 192.168.1.10 and then of
    192.168.1.11: the second is taken for the first, and its connections go to 192.168.1.10. *)
Theorem C95_nat_refuted : exists s,
  nat_ask ($ "192.168.1.11,80") (nat_ask ($ "192.168.1.10,80") nat_start) = s /\
  rules_of s ($ "nat") ($ "FWKNOP_PREROUTING") = Some [dnat_to ($ "0.0.0.0/0") ($ "192.168.1.10:80")].
Proof. eexists. split; [reflexivity|]. vm_compute; reflexivity. Qed.
Print Assumptions C95_nat_refuted.

Definition conf_dst : fwconf := mkFw ($ "/sbin/iptables") false true false [] false.
Definition nat_req_to (dst host : bytes) : spa_data :=
  M_cycle.mkSpa ($ "u") 0 ($ "3.0.0") 2 ($ "m") ($ "10.0.0.1") ($ "10.0.0.1") [] dst ($ "tcp/22") (Some host) None 0 30 ($ "10.0.0.1").
(** With ENABLE_DESTINATION_RULE the internal address is looked for, as a text that may go on, and
    the destination is not.  After a request to 192.168.1.1 with internal host 192.168.1.10, one
    to another destination makes no rule, and neither does one with internal host 192.168.1.1. *)
Theorem C95_nat_destination_refuted : exists s,
  serve conf_dst nat0 (nat_req_to ($ "203.0.113.1") ($ "192.168.1.10,80")) 1000 nat_start = s /\
  rules_of s ($ "nat") ($ "FWKNOP_PREROUTING") = Some [dnat_to ($ "203.0.113.1") ($ "192.168.1.10:80")] /\
  rules_of (serve conf_dst nat0 (nat_req_to ($ "203.0.113.2") ($ "192.168.1.10,80")) 1000 s) ($ "nat") ($ "FWKNOP_PREROUTING")
    = Some [dnat_to ($ "203.0.113.1") ($ "192.168.1.10:80")] /\
  rules_of (serve conf_dst nat0 (nat_req_to ($ "203.0.113.1") ($ "192.168.1.1,80")) 1000 s) ($ "nat") ($ "FWKNOP_PREROUTING")
    = Some [dnat_to ($ "203.0.113.1") ($ "192.168.1.10:80")].
Proof. eexists. split; [reflexivity|]. ands; vm_compute; reflexivity. Qed.
Print Assumptions C95_nat_destination_refuted.

Definition conf_snat : fwconf := mkFw ($ "/sbin/iptables") false false true ($ "203.0.113.1") false.
Definition snat_to : rule :=
  [$ "-p"; $ "6"; $ "-d"; $ "192.168.1.10"; $ "--dport"; $ "80"; $ "-m"; $ "comment"; $ "--comment"; $ "_exp_1030"; $ "-j"; $ "SNAT"; $ "--to-source"; $ "203.0.113.1"].
(** The rule for the source address of connections to the internal host has no source, but the
    search is for one, so it is never found: each request in the same second makes another. *)
Theorem C95_snat_refuted : exists s,
  serve conf_snat nat0 (nat_req ($ "192.168.1.10,80")) 1000 (serve conf_snat nat0 (nat_req ($ "192.168.1.10,80")) 1000 nat_start) = s /\
  rules_of s ($ "nat") ($ "FWKNOP_PREROUTING") = Some [dnat_to ($ "0.0.0.0/0") ($ "192.168.1.10:80")] /\
  rules_of s ($ "nat") ($ "FWKNOP_POSTROUTING") = Some [snat_to; snat_to].
Proof. eexists. split; [reflexivity|]. ands; vm_compute; reflexivity. Qed.
Print Assumptions C95_snat_refuted.

Definition named : rule := [$ "-m"; $ "comment"; $ "--comment"; $ "FWKNOP_INPUT"; $ "-j"; $ "ACCEPT"].
(** Claim: after a request the rule that jumps from INPUT to the chain is there.  The search is
    for the name of the chain in any line of INPUT.  With a rule in INPUT whose comment is the
    name, the jump rule is not made, and the rules in the chain are without effect. *)
Theorem C95_jump_refuted :
  exists fw s, fw ($ "filter") ($ "INPUT") = Some [named] /\ fw ($ "filter") ($ "FWKNOP_INPUT") = Some [] /\
    ask ($ "tcp/22") (Ok ([chain0], (fw, []))) = s /\
    rules_of s ($ "filter") ($ "FWKNOP_INPUT") = Some [r22] /\ rules_of s ($ "filter") ($ "INPUT") = Some [named].
Proof.
  exists (fun t c => if bseq t ($ "filter") then if bseq c ($ "INPUT") then Some [named] else if bseq c ($ "FWKNOP_INPUT") then Some [] else None else None).
  eexists. split; [vm_compute; reflexivity|]. split; [vm_compute; reflexivity|]. split; [reflexivity|]. split; vm_compute; reflexivity.
Qed.
Print Assumptions C95_jump_refuted.

Definition local_req : spa_data :=
  M_cycle.mkSpa ($ "u") 0 ($ "3.0.0") 5 ($ "m") ($ "10.0.0.1") ($ "10.0.0.1") [] ($ "192.168.1.1") ($ "tcp/22") (Some ($ "192.168.1.10,80")) None 0 30 ($ "10.0.0.1").
Definition fw_local : firewall := fun t c => if bseq t ($ "filter") && bseq c ($ "INPUT") then Some [] else fw2 t c.
(** The rule that a local NAT request makes in the input chain has no address to redirect to, but
    the search is for a line with one, so it is never found: each request in the same second
    makes another. *)
Theorem C95_local_refuted : exists s,
  serve conf0 nat0 local_req 1000 (serve conf0 nat0 local_req 1000 (Ok (nat_chains, (fw_local, [])))) = s /\
  rules_of s ($ "filter") ($ "FWKNOP_INPUT") = Some [allow ($ "10.0.0.1") ($ "80") ($ "1030"); allow ($ "10.0.0.1") ($ "80") ($ "1030")] /\
  rules_of s ($ "nat") ($ "FWKNOP_PREROUTING") = Some [dnat_to ($ "0.0.0.0/0") ($ "192.168.1.10:80")].
Proof. eexists. split; [reflexivity|]. split; vm_compute; reflexivity. Qed.
Print Assumptions C95_local_refuted.
(** Requests in the same second to the ports 80 and 8 of the internal host: both rules are made. *)
Example C95_nat_ports_ex :
  rules_of (nat_ask ($ "192.168.1.10,8") (nat_ask ($ "192.168.1.10,80") nat_start)) ($ "nat") ($ "FWKNOP_PREROUTING") =
    Some [dnat_to ($ "0.0.0.0/0") ($ "192.168.1.10:80"); dnat_to ($ "0.0.0.0/0") ($ "192.168.1.10:8")].
Proof. vm_compute. reflexivity. Qed.

(** A NAT request for another host without a change of the source address: its redirection is made or not by the first line of the listing of the DNAT
    chain that has the expiry.  Let that line send to port [n] of some address [ip'].  If it tells
    of the source, the protocol, the port, the expiry and the target, and [n] is the port of the
    request, the chain stays as it is; if not, the rule is added.  With ENABLE_DESTINATION_RULE the line must
    also hold the internal address after to:, as a text that may go on, and the destination plays no
    part; without it the internal address plays no part. *)
Theorem C95_nat_once_partial : forall K cf resolve nc d now pl proto port ip to n ip' cs fw rs hs l, iptables_ok K ->
  word (d_use d) -> zlen (d_use d) <= 15 -> 0 <= now + d_timeout d < 4294967296 ->
  word (d_pkt_dst d) -> zlen (d_pkt_dst d) <= 15 ->
  wants_nat nc (d_type d) -> ~ local_nat (d_type d) -> requested (d_remain d) ((proto, port) :: pl) ->
  nat_goal nc (match d_nat d with Some x => x | None => [] end) ip to -> 0 < to -> 0 <= n ->
  n_no_dnat nc = false -> n_forward_all nc = false -> n_snat nc = false -> f_snat cf = false ->
  (c_to (chain_at 2 cs) = [] \/ names_fit (f_cmd cf) (chain_at 2 cs) /\ c_table (chain_at 2 cs) <> c_table (chain_at 3 cs)) ->
  names_fit (f_cmd cf) (chain_at 3 cs) -> c_from (chain_at 3 cs) <> c_to (chain_at 3 cs) ->
  fw (c_table (chain_at 3 cs)) (c_to (chain_at 3 cs)) = Some rs -> Forall (fun r => ~ In x0a (show K r)) rs ->
  text_lines (heading K (c_to (chain_at 3 cs))) hs -> first_with (now + d_timeout d) l (hs ++ shown_lines K 1 rs) ->
  sends_to ip' n l ->
  let there := tells (d_use d) None proto port (now + d_timeout d) (c_target (chain_at 3 cs)) l /\ n = to /\
    (f_use_dst cf = true -> holds ($ " to:" ++ ip) l) in
  exists cs' fw', process_spa_request_old machine (run_iptables K) cf resolve nc d now (cs, (fw, [])) = Ok (cs', (fw', [])) /\
    exists rs', fw' (c_table (chain_at 3 cs)) (c_to (chain_at 3 cs)) = Some rs' /\
      (there -> rs' = rs) /\
      (~ there -> forall r, redirects false (d_use d) (if f_use_dst cf then d_pkt_dst d else $ "0.0.0.0/0") proto port (now + d_timeout d)
           (c_target (chain_at 3 cs)) ip to r -> legal K r = true -> rs' = if f_prepend cf then r :: rs else rs ++ [r]).
Proof.
  intros K cf resolve nc d now pl proto port ip to n ip' cs fw rs hs l KO W L HE WD LD WN NL RQ NG TO HN ND NA NS1 NS2 OU NF FT HR SN TL FW ST there.
  exact (nat_once K KO cf resolve nc d now W L HE WD LD pl proto port ip to n ip' cs fw rs hs l WN NL RQ NG TO HN ND NA NS1 NS2 OU NF FT HR SN TL FW ST).
Qed.
Print Assumptions C95_nat_once_partial.
(** With ENABLE_DESTINATION_RULE: the line of the first request does not hold the internal address
    of the second, and its rule is made; asked for again, it is the first rule's line that is looked
    at, and it is made once more. *)
Example C95_nat_once_destination_ex :
  let ask host s := serve conf_dst nat0 (nat_req_to ($ "203.0.113.1") host) 1000 s in
  let ten := dnat_to ($ "203.0.113.1") ($ "192.168.1.10:80") in
  let eleven := dnat_to ($ "203.0.113.1") ($ "192.168.1.11:80") in
  f_use_dst conf_dst = true /\
  rules_of (ask ($ "192.168.1.10,80") (ask ($ "192.168.1.10,80") nat_start)) ($ "nat") ($ "FWKNOP_PREROUTING") = Some [ten] /\
  rules_of (ask ($ "192.168.1.11,80") (ask ($ "192.168.1.10,80") nat_start)) ($ "nat") ($ "FWKNOP_PREROUTING") = Some [ten; eleven] /\
  rules_of (ask ($ "192.168.1.11,80") (ask ($ "192.168.1.11,80") (ask ($ "192.168.1.10,80") nat_start))) ($ "nat") ($ "FWKNOP_PREROUTING")
    = Some [ten; eleven; eleven].
Proof. cbv zeta. split; [reflexivity|]. split; [vm_compute; reflexivity|]. split; vm_compute; reflexivity. Qed.

Definition line9 : bytes := $ "1    DNAT     tcp  --  10.0.0.1         0.0.0.0/0         dpt:22 /* _exp_1030 */ to:192.168.1.10:80".
Definition rule9 : rule := dnat_to ($ "0.0.0.0/0") ($ "192.168.1.10:80").
Example C95_nat_once_ex :
  f_use_dst conf0 = false /\ ~ local_nat 2 /\ c_table (chain_at 2 nat_chains) <> c_table (chain_at 3 nat_chains) /\
  ~ In x0a (show ipt9 rule9) /\ text_lines (heading ipt9 ($ "FWKNOP_PREROUTING")) [$ "Chain FWKNOP_PREROUTING"] /\
  shown_lines ipt9 1 [rule9] = [line9] /\ first_with 1030 line9 ([$ "Chain FWKNOP_PREROUTING"] ++ shown_lines ipt9 1 [rule9]) /\
  sends_to ($ "192.168.1.10") 80 line9 /\ tells ($ "10.0.0.1") None 6 22 1030 ($ "DNAT") line9 /\
  rules_of (nat_ask ($ "192.168.1.10,80") nat_start) ($ "nat") ($ "FWKNOP_PREROUTING") = Some [rule9] /\
  rules_of (nat_ask ($ "192.168.1.10,80") (nat_ask ($ "192.168.1.10,80") nat_start)) ($ "nat") ($ "FWKNOP_PREROUTING") = Some [rule9].
Proof.
  assert (NUM : numeral 1030 ($ "1030")) by exact num1030.
  assert (NUM2 : numeral 22 ($ "22")). { replace ($ "22") with (dec 22) by (vm_compute; reflexivity). apply dec_num. lia. }
  assert (NUM3 : numeral 80 ($ "80")). { replace ($ "80") with (dec 80) by (vm_compute; reflexivity). apply dec_num. lia. }
  split; [reflexivity|]. split; [intros [H|H]; discriminate|]. split; [discriminate|].
  split; [apply no_byte; vm_compute; reflexivity|]. split.
  { split; [vm_compute; reflexivity|]. constructor; [|constructor]. apply no_byte. vm_compute. reflexivity. }
  split; [vm_compute; reflexivity|]. split.
  { exists [$ "Chain FWKNOP_PREROUTING"], [], ($ "1030"). split; [vm_compute; reflexivity|].
    split. { apply Forall_cons; [|apply Forall_cons; [|constructor]]; (split; [vm_compute; reflexivity|]; split; [apply no_byte; vm_compute; reflexivity|]; cbn; ands; discriminate). }
    split; [vm_compute; reflexivity|]. split; [exact NUM|].
    split; [apply has_holds; vm_compute; reflexivity|].
    intros y [<-|[]] H. apply has_holds in H. vm_compute in H. discriminate. }
  split.
  { exists ($ "1    DNAT     tcp  --  10.0.0.1         0.0.0.0/0         dpt:22 /* _exp_1030 */"), ($ "80"), [].
    split; [vm_compute; reflexivity|]. split; [exact NUM3|].
    split; [intro H; apply has_holds in H; vm_compute in H; discriminate|]. split; [intro H; apply has_holds in H; vm_compute in H; discriminate|].
    split; [apply no_byte; vm_compute; reflexivity|]. split; [intros []|left; reflexivity]. }
  split; [|split; vm_compute; reflexivity].
  split; [apply has_holds; vm_compute; reflexivity|]. split; [apply has_holds; vm_compute; reflexivity|].
  split; [intros _; exists ($ "tcp"); split; [left; auto|apply has_holds; vm_compute; reflexivity]|].
  split; [intros _; exists ($ "22"); split; [exact NUM2|apply has_holds; vm_compute; reflexivity]|].
  split; [|exact I]. exists ($ "1030"). split; [exact NUM|]. apply has_holds; vm_compute; reflexivity.
Qed.
