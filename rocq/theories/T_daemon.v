(** Property theorems: from the packets that are received to the rules of the firewall. *)
From Verif Require Import Bytes S_text S_access S_codec S_replay S_cycle M_util M_message M_codec M_ctx M_access M_replay M_cycle M_incoming M_packet
  M_fw M_fwinit M_daemon S_incoming S_fw S_fwinit S_daemon
  P_bytes P_util P_util2 P_incoming3 P_incoming8 P_fw P_fw2 P_fw6 P_fw7 P_fw8 P_fw10 P_fwinit P_fwinit2 P_daemon P_daemon2 P_daemon3 T_codec T_ctx T_fw T_incoming T_fwinit.
From Coq Require Import Init.Byte List ZArith Bool Lia.
Import ListNotations.
Open Scope Z_scope.

(** ** C78 Everything the firewall lets through was asked for by an authorised packet, and ends in time *)
(** Any history of received packets, passes for expired rules, making and removing the chains and
    reading the access file anew; whatever becomes of each run of iptables.  The rest of the
    firewall is as before; and every rule there was there at the start, or is a jump to one of the
    daemon's chains, or is a rule that a stanza in force when a packet came makes for this packet,
    which this stanza lets.
    Missing for the full claim: of a NAT address 15 characters are used, see below. *)
Theorem C78_trace_partial : forall K H G cf fc resolve l st cs fw fs log st' cs' fw' fs',
  iptables_ok K -> hashes_ok H -> resolves resolve -> Forall usable (st_acc st) -> firewall_ok fc cs (st_acc st) -> Forall (turn_ok fc cs) l ->
  turns machine (run_iptables K) H G cf fc resolve l (st, (cs, (fw, fs))) = Ok (log, (st', (cs', (fw', fs')))) ->
  same_rest cs fw fw' /\
  forall t n r, was fw' t n r -> was fw t n r \/ jumps cs t n r \/
    exists acc en p later e, In (Receive en p later) l /\ in_force (st_acc st) l acc /\ authorizes H G cf fc resolve cs (acc, en, p, later) t n r e.
Proof.
  intros K H G cf fc resolve l st cs fw fs log st' cs' fw' fs' KO HO RO UA FO TO Q.
  destruct (turns_spec K KO H HO G cf fc resolve RO l st cs fw fs log st' cs' fw' fs' TO UA FO Q) as (_ & R & A & _).
  split; [now apply same_rest_bare|]. intros t n r W. destruct (A t n r W) as [X|[X|(x & e & I & X)]]; auto. right. right.
  destruct x as [[[acc en] p] later]. destruct (turns_log K H G cf fc resolve l st (cs, (fw, fs)) log st' (cs', (fw', fs')) acc en p later Q I) as (I1 & I2).
  exists acc, en, p, later, e. auto.
Qed.
Print Assumptions C78_trace_partial.
(** If then a pass over all chains is made at the time [T], iptables doing its work: what is left in
    the daemon's chains and is new was authorised until a time after [T]. *)
Theorem C78_ends_partial : forall K H G cf fc resolve l st cs fw fs log st' cs' fw' T,
  iptables_ok K -> hashes_ok H -> resolves resolve -> Forall usable (st_acc st) -> firewall_ok fc cs (st_acc st) -> Forall (turn_ok fc cs) l ->
  turns machine (run_iptables K) H G cf fc resolve l (st, (cs, (fw, fs))) = Ok (log, (st', (cs', (fw', [])))) ->
  (forall j c, nth_error cs' j = Some c -> checkable K (f_cmd fc) fw' j c) -> comments_shown K cs fw' ->
  exists cs2 fw2, take machine (run_iptables K) H G cf fc resolve (Sweep true T) (st', (cs', (fw', []))) = Ok ([], (st', (cs2, (fw2, [])))) /\
    forall t n r, own cs t n -> was fw2 t n r -> was fw t n r \/ jumps cs t n r \/
      exists acc en p later e, In (Receive en p later) l /\ in_force (st_acc st) l acc /\ authorizes H G cf fc resolve cs (acc, en, p, later) t n r e /\ T < e.
Proof.
  intros K H G cf fc resolve l st cs fw fs log st' cs' fw' T KO HO RO UA FO TO Q CK SH.
  destruct (turns_spec K KO H HO G cf fc resolve RO l st cs fw fs log st' cs' fw' [] TO UA FO Q) as (N & _ & _ & _).
  destruct (C78_trace_partial K H G cf fc resolve l st cs fw fs log st' cs' fw' [] KO HO RO UA FO TO Q) as (_ & TR).
  destruct (C35_pass_partial K fc T cs' fw' KO CK) as (cs2 & fw2 & E & _ & CL & _). exists cs2, fw2.
  split. { cbn [take]. rewrite E. reflexivity. }
  intros t n r OW (rs & F & I). pose proof OW as (c & IC & UC & -> & ->).
  assert (XC : exists c', In c' cs' /\ same_names c c').
  { clear - N IC. induction N as [|x y k k' S N IH]; [destruct IC|]. destruct IC as [->|IC]; [exists y; split; [now left|exact S]|].
    destruct (IH IC) as (c' & I & S'). exists c'. split; [now right|exact S']. }
  destruct XC as (c' & IC' & S1 & S2 & S3 & S4 & S5). pose proof FO as (FI & _).
  assert (NT : c_table c' <> []).
  { rewrite S2. destruct (FI c IC) as [(X & _)|(_ & (X & _) & _)]; [contradiction|exact X]. }
  destruct (CL c' IC' NT) as (rs1 & rs2 & F1 & F2 & W). rewrite S2, S5 in F1, F2. rewrite F in F2. injection F2 as <-.
  apply (without_in _ _ _ r) in W. apply W in I as (I & NX). assert (W' : was fw' (c_table c) (c_to c) r) by (exists rs1; auto).
  destruct (TR _ _ _ W') as [X|[X|(acc & en & p & later & e & I1 & I2 & AU)]]; auto. right. right. exists acc, en, p, later, e.
  split; [exact I1|]. split; [exact I2|]. split; [exact AU|]. destruct (Z_lt_le_dec T e) as [L|L]; [exact L|]. exfalso. apply NX.
  exists e. split; [|exact L]. apply (SH _ _ _ _ OW W'). eapply authorized_commented; eauto.
Qed.
Print Assumptions C78_ends_partial.
(** Conversely, a request without NAT that is granted, iptables doing its work: each protocol and
    port that it asks for is open for its address, until its time. *)
Theorem C78_opens_partial : forall K H G cf fc resolve en p later st cs fw i a d effs st',
  iptables_ok K -> hashes_ok H -> Forall usable (st_acc st) -> firewall_ok fc cs (st_acc st) -> turn_ok fc cs (Receive en p later) ->
  nth_error (st_acc st) i = Some a -> incoming_spa H G cf en p st = Ok (effs, st') -> effs = [Grant (1 + Z.of_nat i) d] -> ~ wants_nat (a_nat a) (d_type d) ->
  exists cs' fw' pl, take machine (run_iptables K) H G cf fc resolve (Receive en p later) (st, (cs, (fw, []))) = Ok ([(st_acc st, en, p, later)], (st', (cs', (fw', [])))) /\
    requested (d_remain d) pl /\
    forall proto port, In (proto, port) pl ->
      let rule_wanted := opens (d_use d) (if f_use_dst fc then d_pkt_dst d else $ "0.0.0.0/0") proto port (later + d_timeout d) (c_target (chain_at 0 cs)) in
      (forall r, rule_wanted r -> legal K r = true) -> exists r, rule_wanted r /\ present fw' (chain_at 0 cs) r.
Proof.
  intros K H G cf fc resolve en p later st cs fw i a d effs st' KO HO UA (FI & FS & F0 & _) (PO & TM) NE IS EF NW. subst effs.
  destruct (authorized H G cf en p st _ st' (Grant (1 + Z.of_nat i) d) HO PO (usable_config _ UA) IS (or_introl eq_refl)) as (data & fwd & i' & a' & C & D & FW & NE' & LE).
  assert (EK : 1 + Z.of_nat i = 1 + Z.of_nat i') by (destruct LE as (_ & _ & m & d' & _ & _ & _ & _ & MY); apply MY).
  assert (i' = i) by lia. subst i'. rewrite NE in NE'. injection NE' as <-.
  assert (UU : usable a) by (rewrite Forall_forall in UA; apply UA; eapply nth_error_In; eauto).
  pose proof (granted_fit _ _ _ _ _ _ _ _ _ _ _ UU FW LE) as FR. destruct (fr_use _ _ FR) as (W1 & L1). destruct (fr_dst _ _ FR) as (W2 & L2). pose proof (fr_time _ _ FR) as TI.
  destruct (fr_ports _ _ FR) as (pl & RQ & _).
  assert (N0 : names_fit (f_cmd fc) (chain_at 0 cs)) by exact (fit_used fc cs 0%nat FI F0).
  assert (N1 : c_to (chain_at 1 cs) = [] \/ names_fit (f_cmd fc) (chain_at 1 cs)) by exact (fit_at fc cs 1%nat FI).
  destruct (spa_access K KO fc resolve (a_nat a) d later W1 L1 W2 L2 ltac:(lia) pl cs fw [] NW RQ N0 N1) as (cs1 & fw1 & fs1 & R & _ & _ & O).
  destruct (O eq_refl) as (-> & OO). exists cs1, fw1, pl. split; [|split; [exact RQ|exact OO]].
  cbn [take]. rewrite IS. cbn [bind grants]. replace (nat_of (st_acc st) (1 + Z.of_nat i)) with (a_nat a).
  - rewrite R. reflexivity.
  - unfold nat_of. replace (Z.to_nat (1 + Z.of_nat i - 1)) with i by lia. now rewrite NE.
Qed.
Print Assumptions C78_opens_partial.

(** *** Examples *)
Definition work (l : list turn) (acc : list stanza) (cs : list chain) (fw : firewall) :=
  turns machine (run_iptables ipt0) toy nogpg cf0 conf0 (fun _ => None) l (T_incoming.start acc, (cs, (fw, []))).
Definition chain_after (o : outcome (list arrival * world machine)) (t c : bytes) : option (list rule) :=
  match o with Ok (_, (_, (_, (fw, _)))) => fw t c | Fault => None end.
Definition day : list turn := [Build; Receive en0 (pkt d_any) 1700000101; Receive en0 (pkt d_any) 1700000102; Sweep true 1700000130].
(** The packet opens the port for its sender, once: the second copy is a replay; it is open until
    its time. *)
Example C78_ex :
  chain_after (work day [a0] [chain0] fw0) ($ "filter") ($ "FWKNOP_INPUT") = Some [allow ($ "10.1.1.3") ($ "22") ($ "1700000131")] /\
  chain_after (work (day ++ [Sweep true 1700000131]) [a0] [chain0] fw0) ($ "filter") ($ "FWKNOP_INPUT") = Some [].
Proof. split; vm_compute; reflexivity. Qed.
Lemma a0_usable : usable a0.
Proof. unfold usable. repeat split; try (vm_compute; discriminate); try (vm_compute; reflexivity); try constructor. Qed.
Example C78_hyps_ex : iptables_ok ipt0 /\ hashes_ok toy /\ resolves (fun _ => None) /\ Forall usable [a0] /\ firewall_ok conf0 [chain0] [a0] /\
  Forall (turn_ok conf0 [chain0]) day /\ nth_error (st_acc (T_incoming.start [a0])) 0 = Some a0 /\
  exists d, effects (run [a0] cf0 d_any) = Some [Grant (1 + Z.of_nat 0) d] /\ ~ wants_nat (a_nat a0) (d_type d).
Proof.
  split; [exact ipt0_ok|]. split; [exact toy_ok|]. split; [intros h ip Q; discriminate|]. split; [constructor; [exact a0_usable|constructor]|].
  split. { split; [exact chain0_fits|]. split; [vm_compute; discriminate|]. split; [discriminate|]. intros a [<-|[]] Q. discriminate. }
  split. { assert (V : packet_ok (pkt d_any)) by (apply pkt_valid; vm_compute; discriminate).
    repeat (apply Forall_cons; [first [exact I|split; [exact V|split; [discriminate|reflexivity]]]|]). apply Forall_nil. }
  split; [reflexivity|]. eexists. split; [vm_compute; reflexivity|]. intros [[X|X]|[X|[X|X]]]; discriminate.
Qed.
(** A history after which the hypotheses of C78_ends_partial hold *)
Example C78_ends_ex : exists log st cs fw, work [Build; Receive en0 (pkt d_any) 1700000101] [a0] [chain0] fw0 = Ok (log, (st, (cs, (fw, [])))) /\
  (forall j c, nth_error cs j = Some c -> checkable ipt0 (f_cmd conf0) fw j c) /\ comments_shown ipt0 [chain0] fw.
Proof.
  set (o := work [Build; Receive en0 (pkt d_any) 1700000101] [a0] [chain0] fw0). set (r := allow ($ "10.1.1.3") ($ "22") ($ "1700000131")).
  assert (X : exists log st cs fw, o = Ok (log, (st, (cs, (fw, [])))) /\ cs = [mkChain ($ "ACCEPT") ($ "filter") ($ "INPUT") 1 ($ "FWKNOP_INPUT") 1 1700000131] /\
    fw ($ "filter") ($ "FWKNOP_INPUT") = Some [r]).
  { assert (Y : match o with Ok (_, (_, (cs, (_, [])))) => Some cs | _ => None end = Some [mkChain ($ "ACCEPT") ($ "filter") ($ "INPUT") 1 ($ "FWKNOP_INPUT") 1 1700000131]) by (vm_compute; reflexivity).
    assert (Z : chain_after o ($ "filter") ($ "FWKNOP_INPUT") = Some [r]) by (vm_compute; reflexivity).
    destruct o as [[log [st [cs [fw [|f fs]]]]]|]; try discriminate. injection Y as Y. exists log, st, cs, fw. split; [reflexivity|]. split; [exact Y|exact Z]. }
  destruct X as (log & st & cs & fw & E & -> & F). exists log, st. do 2 eexists. split; [exact E|]. clear E.
  assert (RX : expires_at (show ipt0 r) 1700000131).
  { apply (shown_at _ (before ($ "22") ($ "10.1.1.3")) ($ "1700000131") ($ " -j ACCEPT")); [reflexivity|reflexivity|discriminate| |discriminate]. repeat constructor; vm_compute; discriminate. }
  split.
  - intros [|[|j]] c Q; try discriminate. injection Q as <-. right. split; [exact chain0_fit|]. split; [reflexivity|]. exists [r]. split; [exact F|].
    split; [|vm_compute; discriminate]. constructor; [|constructor]. split; [apply no_byte; vm_compute; reflexivity|]. split; [apply no_byte; vm_compute; reflexivity|]. right. eauto.
  - intros t n r' e (c & [<-|[]] & _ & -> & ->) (rs & F' & I) (a & x & b & N & C). change (fw ($ "filter") ($ "FWKNOP_INPUT") = Some rs) in F'. rewrite F in F'. injection F' as <-.
    destruct I as [<-|[]]. assert (M : In (mark ++ x) r) by (rewrite C; apply in_app_iff; right; right; right; right; left; reflexivity).
    assert (x = $ "1700000131").
    { clear - M. unfold r, allow in M. repeat (destruct M as [M|M]; [try (vm_compute in M; discriminate)|]); [|destruct M]. now apply app_inv_head in M. }
    subst x. destruct N as (_ & _ & <- & _). exact RX.
Qed.
(** *** Of a NAT address only 15 characters are used *)
Definition d_far : bytes := Eval vm_compute in make [CSetType 2; CSetMsg (Some ($ "1.2.3.4,tcp/22")); CSetNat (Some ($ "0300.0250.01.012,22")); CSetHmacType 3] (Some ($ "hmac key")).
Definition chain_fwd : chain := mkChain ($ "ACCEPT") ($ "filter") ($ "FORWARD") 1 ($ "FWKNOP_FORWARD") 0 0.
Definition chain_pre : chain := mkChain ($ "DNAT") ($ "nat") ($ "PREROUTING") 1 ($ "FWKNOP_PREROUTING") 0 0.
Definition four : list chain := [chain0; no_chain; chain_fwd; chain_pre].
Definition fw_four : firewall := fun t c =>
  if bseq t ($ "filter") then if bseq c ($ "INPUT") then Some [] else if bseq c ($ "FORWARD") then Some [] else None
  else if bseq t ($ "nat") then if bseq c ($ "PREROUTING") then Some [] else None else None.
(** The request names the host 192.168.1.10, written with octal numbers in 16 characters, and is
    granted; the connection is sent to 192.168.1.1, the last character being cut off. *)
Theorem C78_nat_cut_refuted : exists d r, effects (run [a0] cf0 d_far) = Some [Grant 1 d] /\
  d_nat d = Some ($ "0300.0250.01.012,22") /\ ipv4_text ($ "0300.0250.01.012") 192 168 1 10 /\ ipv4_text ($ "0300.0250.01.01") 192 168 1 1 /\
  redirects false ($ "1.2.3.4") ($ "0.0.0.0/0") 6 22 1700000131 ($ "DNAT") ($ "0300.0250.01.01") 22 r /\
  chain_after (work [Build; Receive en0 (pkt d_far) 1700000101] [a0] four fw_four) ($ "nat") ($ "FWKNOP_PREROUTING") = Some [r].
Proof.
  eexists. exists ([$ "-p"; $ "6"; $ "-s"; $ "1.2.3.4"; $ "-d"; $ "0.0.0.0/0"; $ "--dport"; $ "22"] ++ expiring ($ "1700000131") ($ "DNAT") ++ [$ "--to-destination"; $ "0300.0250.01.01:22"]).
  split; [vm_compute; reflexivity|]. split; [reflexivity|].
  assert (OC : forall s v, forallb isdigit s = true -> hd x00 s = "0"%byte -> forallb (fun c => bv c <? 56) s = true -> v = radix 8 s -> c_number s v).
  { intros s v D Z E ->. split; [intros ->; discriminate|]. split. { unfold all_digits. rewrite Forall_forall. intros c I. rewrite forallb_forall in D. apply isdigit_digit. auto. }
    right. split; [exact Z|]. split; [|reflexivity]. rewrite Forall_forall. intros c I. rewrite forallb_forall in E. apply Z.ltb_lt. auto. }
  split. { exists ($ "0300"), ($ "0250"), ($ "01"), ($ "012"). split; [reflexivity|]. repeat (split; [apply OC; reflexivity|]). repeat split; discriminate. }
  split. { exists ($ "0300"), ($ "0250"), ($ "01"), ($ "01"). split; [reflexivity|]. repeat (split; [apply OC; reflexivity|]). repeat split; discriminate. }
  split; [|vm_compute; reflexivity].
  assert (NU : forall s v, s <> [] -> forallb isdigit s = true -> decimal s = v -> hd x00 s <> "0"%byte -> numeral v s).
  { intros s v N D E Z. split; [exact N|]. split; [|split; [exact E|intros X; contradiction]]. unfold all_digits. rewrite Forall_forall. intros c I. rewrite forallb_forall in D. apply isdigit_digit. auto. }
  exists ($ "6"), ($ "22"), ($ "1700000131"), ($ "22"). repeat (split; [apply NU; first [discriminate|reflexivity]|]). reflexivity.
Qed.
Print Assumptions C78_nat_cut_refuted.
