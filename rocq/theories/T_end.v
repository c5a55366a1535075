(** Property theorems: from the command line of the client to the firewall of the server. *)
From Verif Require Import Bytes M_util M_message M_codec M_cipher M_ctx M_access M_replay M_cycle M_incoming M_packet M_client S_base64 S_text S_codec S_cipher S_ctx S_access S_replay S_conf S_cycle M_send M_fw M_fwinit M_daemon
  S_client S_incoming S_packet S_send S_fw S_fwinit S_daemon S_end
  P_bytes P_util P_util2 P_access P_incoming3 P_client2 P_client4 P_client5 P_client6 P_send4 P_fw P_fw2 P_fw8 P_daemon P_daemon3 P_daemon4 T_codec T_ctx T_incoming T_client T_send T_fw T_fwinit T_daemon.
From Coq Require Import Init.Byte List ZArith Bool Lia.
Import ListNotations.
Open Scope Z_scope.

(** ** C79 What is asked for on the client's command line is what the server's firewall opens *)
Lemma granted_end H G v w cf o x sv s b en p st i a md effs st' :
  hashes_ok H -> caller v w o x -> expects H G cf v o x en p st i a -> api_mode (or_default (o_mode o) 2) md ->
  client H v w o x = Ok (mkEnding sv (Some s) b) -> arrives s p -> packet_ok p -> incoming_spa H G cf en p st = Ok (effs, st') ->
  exists m d fwd, wants v o m /\ effs = [Grant (1 + Z.of_nat i) d] /\ asks a p fwd m d /\ forwarded_read cf p fwd /\ d_src d = o_ip o /\ d_remain d = o_access o /\
    open_time a o (d_timeout d) /\ opened_address cf a o p (d_use d).
Proof.
  intros HO [CO CW CR CC (CP1 & CP2)] [E1 E2 E3 E4 E5 E6 E7 E8 E9 E10 E11 E12 E13 E14] AM C A PO IS.
  assert (AW : forall t, access_wanted o t -> t = o_access o). { intros t (c & PC & X). inversion PC; subst; [congruence|congruence|exact X]. }
  destruct (C65_granted_partial H G v w cf en o x sv s b p st i a md effs st' HO CO CW CR) as (m & d & fwd & W & EF & AS & FR & SR & RM); auto; try congruence.
  { now apply usable_config. } { intros t T. rewrite (AW t T). exact E10. }
  exists m, d, fwd. split; [exact W|]. split; [exact EF|]. split; [exact AS|]. split; [exact FR|]. split; [exact SR|]. split; [now apply AW|]. split.
  - unfold open_time. pose proof (as_timeout _ _ _ _ _ AS) as D. rewrite (wn_timeout v o m W), CC, andb_true_r in D. exact D.
  - exists fwd, (d_pkt_src d). split; [exact FR|]. split; [apply (as_pkt_src _ _ _ _ _ AS)|]. rewrite <- SR. apply (as_use _ _ _ _ _ AS).
Qed.
(** A request without NAT, the server's iptables doing its work: each protocol and port of the
    command line is open for the address of the request, for the time of the request as far as the
    server allows it; and nothing else is.
    Missing for the full claim: what is missing in C65, and the choice of another port. *)
Theorem C79_access_partial : forall K H G v w cf fc resolve o x sv s b en p later st i a md cs fw pl log st' cs' fw' fs',
  iptables_ok K -> hashes_ok H -> caller v w o x -> expects H G cf v o x en p st i a -> api_mode (or_default (o_mode o) 2) md ->
  firewall_ok fc cs (st_acc st) -> turn_ok fc cs (Receive en p later) -> n_force (a_nat a) = false -> ~ nat_asked o -> requested (o_access o) pl ->
  client H v w o x = Ok (mkEnding sv (Some s) b) -> arrives s p ->
  take machine (run_iptables K) H G cf fc resolve (Receive en p later) (st, (cs, (fw, []))) = Ok (log, (st', (cs', (fw', fs')))) ->
  exists ip dst t, opened_address cf a o p ip /\ towards fc p dst /\ open_time a o t /\
    let wanted proto port := opens ip dst proto port (later + t) (c_target (chain_at 0 cs)) in
    (forall proto port, In (proto, port) pl -> (forall r, wanted proto port r -> legal K r = true) -> exists r, wanted proto port r /\ present fw' (chain_at 0 cs) r) /\
    (forall tb n r, was fw' tb n r -> was fw tb n r \/ jumps cs tb n r \/ exists proto port, In (proto, port) pl /\
       ((is_chain (chain_at 0 cs) tb n /\ wanted proto port r) \/
        (is_chain (chain_at 1 cs) tb n /\ answers ip dst proto port (later + t) (c_target (chain_at 1 cs)) r))).
Proof.
  intros K H G v w cf fc resolve o x sv s b en p later st i a md cs fw pl log st' cs' fw' fs' KO HO CA EX AM FO TO NF NN RQ C A Q.
  pose proof (ex_config _ _ _ _ _ _ _ _ _ _ _ EX) as UA. pose proof (ex_stanza _ _ _ _ _ _ _ _ _ _ _ EX) as NE.
  destruct (incoming_spa H G cf en p st) as [[effs st1]|] eqn:IS; [|exfalso; cbn [take] in Q; rewrite IS in Q; discriminate].
  destruct (granted_end H G v w cf o x sv s b en p st i a md effs st1 HO CA EX AM C A (proj1 TO) IS) as (m & d & fwd & W & -> & AS & FR & SR & RM & OT & OA).
  assert (NW : ~ wants_nat (a_nat a) (d_type d)).
  { rewrite (as_type _ _ _ _ _ AS), (wn_type v o m W). unfold type_wanted. rewrite (ca_command _ _ _ _ CA).
    assert (L : o_nat_local o = false) by (destruct (o_nat_local o) eqn:L; auto; exfalso; apply NN; left; exact L).
    assert (AC : o_nat_access o = []) by (destruct (o_nat_access o) eqn:L2; auto; exfalso; apply NN; right; rewrite L2; discriminate).
    rewrite L, AC. unfold wants_nat, local_nat. rewrite NF. destruct (0 <? o_timeout o); intros [[X|X]|[X|[X|X]]]; discriminate. }
  rewrite <- RM in RQ.
  destruct (grant_access K KO H HO G cf fc resolve en p later st st1 cs fw i a d UA FO TO NE IS pl NW RQ) as (cs1 & fw1 & R & O & N).
  rewrite R in Q. injection Q as <- <- <- <- <-.
  exists (d_use d), (if f_use_dst fc then d_pkt_dst d else $ "0.0.0.0/0"), (d_timeout d). split; [exact OA|]. split.
  { unfold towards. destruct (f_use_dst fc); [apply (as_pkt_dst _ _ _ _ _ AS)|reflexivity]. }
  split; [exact OT|]. cbv zeta. split; [exact O|exact N].
Qed.
Print Assumptions C79_access_partial.
(** A request with NAT to an address and port behind the server: the first protocol and port of the
    command line is sent on to this address and port, for the address and time of the request. *)
Theorem C79_nat_partial : forall K H G v w cf fc resolve o x sv s b en p later st i a md cs fw proto port more ip sep ds log st' cs' fw' fs',
  iptables_ok K -> hashes_ok H -> caller v w o x -> expects H G cf v o x en p st i a -> api_mode (or_default (o_mode o) 2) md ->
  firewall_ok fc cs (st_acc st) -> turn_ok fc cs (Receive en p later) -> n_force (a_nat a) = false -> n_no_dnat (a_nat a) = false ->
  in_use (chain_at 2 cs) -> in_use (chain_at 3 cs) -> (forall r, legal K r = true) ->
  requested (o_access o) ((proto, port) :: more) ->
  o_nat_local o = false -> o_nat_access o = ip ++ [sep] ++ ds -> address_text ip -> sep = ":"%byte \/ sep = ","%byte ->
  client H v w o x = Ok (mkEnding sv (Some s) b) -> arrives s p ->
  take machine (run_iptables K) H G cf fc resolve (Receive en p later) (st, (cs, (fw, []))) = Ok (log, (st', (cs', (fw', fs')))) ->
  exists src dst t, opened_address cf a o p src /\ towards fc p dst /\ open_time a o t /\
    (exists r, forwards (n_forward_all (a_nat a)) src proto (decimal ds) (later + t) (c_target (chain_at 2 cs)) r /\ present fw' (chain_at 2 cs) r) /\
    (exists r, redirects (n_forward_all (a_nat a)) src dst proto port (later + t) (c_target (chain_at 3 cs)) ip (decimal ds) r /\ present fw' (chain_at 3 cs) r) /\
    (forall tb n r, was fw' tb n r -> was fw tb n r \/ exists j how, snat_how fc (a_nat a) port j how /\
       nat_rules fc (a_nat a) (type_wanted o) cs src dst proto port ip (decimal ds) (later + t) j how tb n r).
Proof.
  intros K H G v w cf fc resolve o x sv s b en p later st i a md cs fw proto port more ip sep ds log st' cs' fw' fs' KO HO CA EX AM FO TO NF ND U2 U3 LG RQ NL NA AI SE C A Q.
  pose proof (ex_config _ _ _ _ _ _ _ _ _ _ _ EX) as UA. pose proof (ex_stanza _ _ _ _ _ _ _ _ _ _ _ EX) as NE.
  destruct (incoming_spa H G cf en p st) as [[effs st1]|] eqn:IS; [|exfalso; cbn [take] in Q; rewrite IS in Q; discriminate].
  destruct (granted_end H G v w cf o x sv s b en p st i a md effs st1 HO CA EX AM C A (proj1 TO) IS) as (m & d & fwd & W & -> & AS & FR & SR & RM & OT & OA).
  assert (NZ : o_nat_access o <> []) by (rewrite NA; destruct ip; discriminate).
  assert (TY : d_type d = type_wanted o) by (rewrite (as_type _ _ _ _ _ AS); apply (wn_type v o m W)).
  assert (TW : type_wanted o = 2 \/ type_wanted o = 4).
  { unfold type_wanted. rewrite (ca_command _ _ _ _ CA), NL. destruct (o_nat_access o); [congruence|]. destruct (0 <? o_timeout o); auto. }
  assert (WN : wants_nat (a_nat a) (d_type d)) by (rewrite TY; unfold wants_nat; tauto).
  assert (NLO : ~ local_nat (d_type d)) by (rewrite TY; unfold local_nat; lia).
  pose proof (wn_nat v o m W) as NM. pose proof (as_nat _ _ _ _ _ AS) as DN. destruct (s_nat m) as [t|]; [|exfalso; apply NM; right; exact NZ].
  destruct NM as (_ & NM). destruct (nat_wanted_address o t ip sep ds NM AI SE NA) as (q & -> & (Q1 & Q2 & Q3 & _) & PR).
  rewrite <- RM in RQ. destruct FO as (FI & FO').
  assert (T2 : c_to (chain_at 2 cs) <> []) by (destruct (P_fwinit2.fit_used fc cs 2%nat FI U2) as (_ & _ & _ & (X & _) & _); exact X).
  assert (T3 : c_to (chain_at 3 cs) <> []) by (destruct (P_fwinit2.fit_used fc cs 3%nat FI U3) as (_ & _ & _ & (X & _) & _); exact X).
  destruct (grant_nat K KO H HO G cf fc resolve en p later st st1 cs fw i a d UA (conj FI FO') TO NE IS proto port more ip (decimal ds) q WN NF RQ AI ltac:(lia) DN Q1 Q2 Q3)
    as (j & how & cs1 & fw1 & SH & R & O & N).
  rewrite R in Q. injection Q as <- <- <- <- <-. destruct (O LG) as (_ & O2 & O3 & _).
  exists (d_use d), (if f_use_dst fc then d_pkt_dst d else $ "0.0.0.0/0"), (d_timeout d). split; [exact OA|]. split.
  { unfold towards. destruct (f_use_dst fc); [apply (as_pkt_dst _ _ _ _ _ AS)|reflexivity]. }
  split; [exact OT|]. split; [apply O2; auto|]. split; [apply O3; auto|].
  intros tb n r X. destruct (N tb n r X) as [Y|Y]; [now left|right]. exists j, how. split; [exact SH|]. rewrite <- TY. exact Y.
Qed.
Print Assumptions C79_nat_partial.

(** *** Examples *)
Lemma tcp22_allowed : ports_allowed a0 ($ "tcp/22").
Proof.
  assert (PP : proto_port ($ "tcp/22")).
  { exists ($ "tcp"), ($ "22"). split; [auto|]. split; [reflexivity|]. split; [split; discriminate|]. split; [repeat constructor; vm_compute; discriminate|split; vm_compute; discriminate]. }
  destruct (proto_port_entry _ PP) as (q & PE & _). exists [$ "tcp/22"], [q]. split; [|split; [constructor; [exact PE|constructor]|]].
  + split; [reflexivity|]. split; [discriminate|]. constructor; [intro Q; vm_compute in Q; intuition discriminate|constructor].
  + split; [intros r _ []|intro Q; destruct (Q eq_refl)].
Qed.
Lemma tcp22_requested : requested ($ "tcp/22") [(6, 22)].
Proof. apply requested_one; first [discriminate|reflexivity]. Qed.
Lemma o0_caller : caller v0 w0 o0 x0.
Proof. constructor; [exact o0_ok|exact v0_ok|exact (route0_ok _ _ _ _ _)|reflexivity|split; reflexivity]. Qed.
Lemma expected o data : agreed o a0 -> o_access o = $ "tcp/22" -> o_ip o <> $ "0.0.0.0" ->
  (forall m, wants v0 o m -> fits (or_default (o_digest o) 3) m /\ 1000000000 <= s_time m /\ passes cf0 (e_now en0) a0 m /\ forall n, sent_length o m n -> n < 400) ->
  expects toy nogpg cf0 v0 o x0 en0 (pkt data) (T_incoming.start [a0]) 0 a0.
Proof.
  intros AG AC IP MS. constructor; try reflexivity; auto.
  - constructor; [exact a0_usable|constructor].
  - constructor.
  - split; [|intros l Q; discriminate Q]. exists (mknet 0 0). split; [left; reflexivity|reflexivity].
  - intros (Q & _). discriminate Q.
  - rewrite AC. exact tcp22_allowed.
  - discriminate.
  - intros data' _. split; [intros (c & [] & _)|]. split; [intros fwd a1 m d cc [<-|[]] _ _ Q; discriminate Q|]. intros fwd j a' e J. lia.
Qed.
Lemma o0_agreed : agreed o0 a0.
Proof.
  constructor; [reflexivity| |reflexivity|].
  - intros k k' K U. apply o0_key in K. subst k. rewrite U. reflexivity.
  - split; [split; discriminate|]. split; [reflexivity|]. intros y Y. cbn in Y. subst y. split; [reflexivity|discriminate].
Qed.
Lemma o0_expected : expects toy nogpg cf0 v0 o0 x0 en0 (pkt sent0) (T_incoming.start [a0]) 0 a0.
Proof.
  apply expected; [exact o0_agreed|reflexivity|discriminate|].
  intros m W. destruct (o0_wants m W) as (R & U & T & V & TY & M & N & TO). split; [apply o0_fits; auto|]. rewrite T. split; [discriminate|]. split.
  - unfold passes. rewrite T, U, TY. split; [intros _; vm_compute; discriminate|]. split; [intros u Q; discriminate Q|]. split; intros [Q|Q]; discriminate Q.
  - intros n L. rewrite (o0_sent m n W L). reflexivity.
Qed.
Lemma a0_firewall cs : fitting ($ "/sbin/iptables") cs -> in_use (chain_at 0 cs) -> firewall_ok conf0 cs [a0].
Proof. intros F U. split; [exact F|]. split; [vm_compute; discriminate|]. split; [exact U|]. intros a [<-|[]] Q. discriminate. Qed.
Definition one (p : bytes) (cs : list chain) (fw : firewall) := work [Receive en0 (pkt p) 1700000101] [a0] cs fw.
Example C79_access_ex : caller v0 w0 o0 x0 /\ expects toy nogpg cf0 v0 o0 x0 en0 (pkt sent0) (T_incoming.start [a0]) 0 a0 /\ api_mode (or_default (o_mode o0) 2) CBC /\
  firewall_ok conf0 [chain0] [a0] /\ turn_ok conf0 [chain0] (Receive en0 (pkt sent0) 1700000101) /\ n_force (a_nat a0) = false /\ ~ nat_asked o0 /\ requested (o_access o0) [(6, 22)] /\
  client toy v0 w0 o0 x0 = Ok (mkEnding (Some (sent0 ++ [x0a])) (Some (Datagram ($ "fw.example.org") 62201 sent0)) true) /\
  arrives (Datagram ($ "fw.example.org") 62201 sent0) (pkt sent0) /\
  chain_after (one sent0 [chain0] fw0) ($ "filter") ($ "FWKNOP_INPUT") = Some [allow ($ "10.1.1.3") ($ "22") ($ "1700000161")].
Proof.
  split; [exact o0_caller|]. split; [exact o0_expected|]. split; [constructor|]. split; [apply a0_firewall; [exact chain0_fits|discriminate]|].
  split; [split; [apply pkt_valid; vm_compute; discriminate|split; [discriminate|reflexivity]]|]. split; [reflexivity|]. split; [intros [Q|Q]; [discriminate|apply Q; reflexivity]|].
  split; [exact tcp22_requested|]. split; [exact sent0_is|]. split; [|vm_compute; reflexivity].
  pose proof (ar_datagram ($ "fw.example.org") 62201 (pkt sent0)) as A. rewrite pkt_payload in A. exact A.
Qed.
(** With NAT *)
Definition o_nat : options := opts ip0 ($ "tcp/22") [] ($ "192.168.1.2:2222") 0 false 60 0 0 pw0 hk0 3.
Definition sent_nat : bytes := Eval vm_compute in match data_of (make_packet toy v0 o_nat) with Some d => d | None => [] end.
Lemma inside_address : address_text ($ "192.168.1.2").
Proof.
  split; [vm_compute; split; discriminate|]. exists 192, 168, 1, 2, ($ "192"), ($ "168"), ($ "1"), ($ "2"). split; [reflexivity|].
  assert (X : forall s v, s <> [] -> forallb isdigit s = true -> hd x00 s <> "0"%byte -> v = decimal s -> c_number s v).
  { intros s v N D Z ->. split; [exact N|]. split; [|left; auto]. unfold all_digits. rewrite Forall_forall. intros c I. rewrite forallb_forall in D. apply isdigit_digit. auto. }
  repeat (split; [apply X; first [discriminate|reflexivity]|]). repeat split; discriminate.
Qed.
Lemma o_nat_wants m : wants v0 o_nat m -> zlen (s_rand m) = 16 /\ s_user m = $ "alice" /\ s_time m = 1700000000 /\ s_version m = $ "3.0.0" /\ s_type m = 4 /\
  s_msg m = $ "10.1.1.3,tcp/22" /\ s_nat m = Some ($ "192.168.1.2,2222") /\ s_timeout m = 60.
Proof.
  intros [[_ R] U T V TY (t & M & _ & A) N _ TO]. split; [exact R|]. split. { destruct U as [[U _]|[_ U]]; [destruct (U eq_refl)|exact U]. }
  split. { destruct T as [[T _]|[_ T]]; [discriminate T|exact T]. } split; [exact V|]. split; [exact TY|]. split.
  { destruct (A eq_refl) as (c & PC & W). rewrite M. destruct PC as [n PC|PC NP|PC NP]; [discriminate PC|destruct (NP eq_refl)|]. rewrite W. reflexivity. }
  split; [|exact TO]. destruct (s_nat m) as [n|]; [|exfalso; apply N; right; discriminate]. destruct N as [_ N].
  destruct (nat_wanted_address o_nat n ($ "192.168.1.2") ":"%byte ($ "2222") N inside_address (or_introl eq_refl) eq_refl) as (q & -> & W & _).
  change (decimal ($ "2222")) with 2222 in W. assert (q = $ "2222"); [|subst q; reflexivity].
  apply (writes_unique _ _ 2222 W). split; [discriminate|]. split; [repeat constructor; vm_compute; discriminate|]. split; [reflexivity|discriminate].
Qed.
Lemma o_nat_length m n : wants v0 o_nat m -> plain_length 3 m n -> n = 134.
Proof.
  intros W (t & ti & WT & WI & ->). destruct (o_nat_wants m W) as (R & U & T & V & TY & M & N & TO). rewrite R, U, V, M, N, TO in *. rewrite T in WT.
  assert (t = $ "1700000000").
  { apply (writes_unique _ _ 1700000000 WT). split; [discriminate|]. split; [repeat constructor; vm_compute; discriminate|]. split; [reflexivity|discriminate]. }
  assert (ti = $ "60").
  { apply (writes_unique _ _ 60 WI). split; [discriminate|]. split; [repeat constructor; vm_compute; discriminate|]. split; [reflexivity|discriminate]. }
  subst. reflexivity.
Qed.
Lemma four_fits : fitting ($ "/sbin/iptables") four.
Proof.
  intros c [<-|[<-|[<-|[<-|[]]]]]; [right; exact chain0_fit|left; repeat split|right|right];
    unfold names_fit; T_fw.ands; try (apply word_lit; [vm_compute; reflexivity|discriminate]); try (vm_compute; discriminate); apply marks_none; reflexivity.
Qed.
Example C79_nat_ex : caller v0 w0 o_nat x0 /\ expects toy nogpg cf0 v0 o_nat x0 en0 (pkt sent_nat) (T_incoming.start [a0]) 0 a0 /\
  firewall_ok conf0 four [a0] /\ in_use (chain_at 2 four) /\ in_use (chain_at 3 four) /\ n_no_dnat (a_nat a0) = false /\
  o_nat_access o_nat = $ "192.168.1.2" ++ [":"%byte] ++ $ "2222" /\ address_text ($ "192.168.1.2") /\
  client toy v0 w0 o_nat x0 = Ok (mkEnding (Some (sent_nat ++ [x0a])) (Some (Datagram ($ "fw.example.org") 62201 sent_nat)) true) /\
  chain_after (one sent_nat four fw_four) ($ "nat") ($ "FWKNOP_PREROUTING") =
    Some [[$ "-p"; $ "6"; $ "-s"; $ "10.1.1.3"; $ "-d"; $ "0.0.0.0/0"; $ "--dport"; $ "22"] ++ expiring ($ "1700000161") ($ "DNAT") ++ [$ "--to-destination"; $ "192.168.1.2:2222"]].
Proof.
  split. { constructor; [opts_ok|exact v0_ok|exact (route0_ok _ _ _ _ _)|reflexivity|split; reflexivity]. }
  split.
  { apply expected; [|reflexivity|discriminate|].
    - constructor; [reflexivity| |reflexivity|].
      + intros k k' K U. cbn in K. subst k. rewrite U. reflexivity.
      + split; [split; discriminate|]. split; [reflexivity|]. intros y Y. cbn in Y. subst y. split; [reflexivity|discriminate].
    - intros m W. pose proof (fun n => o_nat_length m n W) as L. destruct (o_nat_wants m W) as (R & U & T & V & TY & M & N & TO). split; [|rewrite T; split; [discriminate|split]].
      + unfold fits. rewrite U, T, M, TO. split; [vm_compute; discriminate|]. split; [reflexivity|]. split; [vm_compute; discriminate|]. split; [discriminate|].
        intros n P. rewrite (L n P). discriminate.
      + unfold passes. rewrite T, U, TY. split; [intros _; vm_compute; discriminate|]. split; [intros u Q; discriminate Q|]. split; intros [Q|Q]; first [discriminate Q|exists []; right; reflexivity].
      + intros n (l & P & ->). rewrite (L l P). reflexivity. }
  split; [apply a0_firewall; [exact four_fits|discriminate]|]. split; [discriminate|]. split; [discriminate|]. split; [reflexivity|]. split; [reflexivity|]. split; [exact inside_address|].
  split; vm_compute; reflexivity.
Qed.
