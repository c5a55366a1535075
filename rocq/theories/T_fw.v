(** Property theorems: the firewall. *)
From Verif Require Import P_util2 Bytes S_text S_access S_incoming M_util M_message M_codec M_access M_cycle M_incoming M_fw S_fw
  P_bytes P_access P_incoming5 P_fw P_fw2 P_fw5 P_fw6 P_fw7 P_fw8 P_fw9 P_fw10 P_fw11.
From Coq Require Import Init.Byte List ZArith Bool Lia.
Import ListNotations.
Open Scope Z_scope.

(** ** A concrete iptables for the examples *)
Fixpoint show_args (r : rule) : bytes :=
  match r with
  | [] => []
  | a :: ((b :: r') as t) => if bseq a ($ "--comment") then $ "/* " ++ b ++ $ " */ " ++ show_args r' else a ++ $ " " ++ show_args t
  | [a] => a
  end.
Definition ipt0 : iptables :=
  mkIpt (fun _ => true) show_args (fun c => $ "Chain " ++ c ++ [x0a]) (fun k => dec_go (S (Z.to_nat (Z.log2 k))) k []) ($ "iptables: No chain." ++ [x0a]) (fun _ _ _ => false).
Fixpoint marks (n : nat) (s : bytes) : list nat :=
  match s with
  | [] => []
  | c :: r => if is_prefix mark s then n :: marks (S n) r else marks (S n) r
  end.
Lemma marks_in a : forall n b, In (n + List.length a)%nat (marks n (a ++ mark ++ b)).
Proof.
  induction a as [|c a IH]; intros n b.
  - cbn [app List.length]. rewrite Nat.add_0_r. change (mark ++ b) with ("_"%byte :: $ "exp_" ++ b). cbn [marks].
    replace (is_prefix mark ("_"%byte :: $ "exp_" ++ b)) with true; [left; reflexivity|]. symmetry. apply is_prefix_app. exists b. reflexivity.
  - cbn [app marks List.length]. replace (n + S (List.length a))%nat with (S n + List.length a)%nat by lia.
    destruct (is_prefix _ _); [right|]; apply IH.
Qed.
Lemma marks_none x : marks 0 x = [] -> unmarked x.
Proof. intros E a b ->. pose proof (marks_in a 0 b) as I. rewrite E in I. destruct I. Qed.
Lemma marks_one x pre : marks 0 x = [List.length pre] -> is_prefix pre x = true -> forall a b, x = a ++ mark ++ b -> a = pre.
Proof.
  intros E P a b ->. pose proof (marks_in a 0 b) as I. rewrite E in I. destruct I as [I|[]]. cbn in I.
  apply is_prefix_app in P. destruct P as (r & P). clear E.
  revert a I P. induction pre as [|c pre IH]; intros [|d a] I P; try discriminate; auto.
  cbn in P, I. injection P as -> P. injection I as I. f_equal. auto.
Qed.
Lemma ipt0_ok : iptables_ok ipt0.
Proof.
  split; [|split].
  - intros k K. cbn [number ipt0]. set (f := S (Z.to_nat (Z.log2 k))).
    destruct (dec_go_spec f k []) as (ds & E & A & N & D & H & _).
    + split; auto. destruct (Z.eq_dec k 0) as [->|NZ]; [apply Z.pow_pos_nonneg; lia|].
      pose proof (Z.log2_spec k ltac:(lia)) as [_ L]. pose proof (Z.log2_nonneg k).
      replace (Z.of_nat f) with (Z.succ (Z.log2 k)) by (unfold f; lia).
      eapply Z.lt_le_trans; [exact L|]. apply Z.pow_le_mono_l. lia.
    + lia.
    + rewrite E, app_nil_r. repeat split; auto.
  - intros c [NE W] U. exists ($ "Chain " ++ c). split; [reflexivity|]. split; [discriminate|]. split.
    + apply no_nul_app; split; [intro Q; cbn in Q; intuition discriminate|].
      intro I. rewrite Forall_forall in W. destruct (W _ I) as [_ Q]. easy.
    + intros a b E. cbn [heading ipt0] in E.
      remember (mark ++ b) as mb eqn:HM. assert (H1 : hd x00 mb = "_"%byte) by (rewrite HM; reflexivity).
      change (($ "Chain " ++ c ++ [x0a]) = a ++ mb) in E. change ("C"%byte :: "h"%byte :: "a"%byte :: "i"%byte :: "n"%byte :: " "%byte :: c ++ [x0a] = a ++ mb) in E.
      do 6 (destruct a as [|? a]; [cbn [app] in E; rewrite <- E in H1; discriminate|]; cbn [app] in E; injection E as _ E). subst mb.
      destruct b as [|x b] using rev_ind.
      * rewrite app_nil_r in E. change mark with ($ "_exp" ++ ["_"%byte]) in E. rewrite app_assoc in E. apply app_inj_tail in E. destruct E; discriminate.
      * rewrite !app_assoc in E. apply app_inj_tail in E. destruct E as [E _]. rewrite <- app_assoc in E. exact (U _ _ E).
  - exists ($ "iptables: No chain."). split; [reflexivity|]. split; [discriminate|]. intro Q. cbn in Q. intuition discriminate.
Qed.

(** Rules shown as expiring at [e] *)
Lemma shown_at x pre ds post : x = pre ++ mark ++ ds ++ $ " */" ++ post -> marks 0 x = [List.length pre] -> ds <> [] -> all_digits ds -> zlen ds <= 11 ->
  expires_at x (decimal ds).
Proof.
  intros E M N A L. exists pre, ds, post. split; auto. split; auto. apply marks_one; auto. apply is_prefix_app. exists (mark ++ ds ++ $ " */" ++ post). exact E.
Qed.
Definition chain0 : chain := mkChain ($ "ACCEPT") ($ "filter") ($ "INPUT") 1 ($ "FWKNOP_INPUT") 0 0.
Definition fw0 : firewall := fun t c =>
  if bseq t ($ "filter") then
    if bseq c ($ "INPUT") then Some [[$ "-j"; $ "ACCEPT"]] else if bseq c ($ "FWKNOP_INPUT") then Some [] else None
  else None.
Definition req (src ports : bytes) (timeout : Z) : spa_data :=
  M_cycle.mkSpa ($ "u") 0 ($ "3.0.0") 1 ($ "m") ($ "10.0.0.1") ($ "10.0.0.1") [] ($ "192.168.1.1") ports None None 0 timeout src.
Definition conf0 : fwconf := mkFw ($ "/sbin/iptables") false false false [] false.
Definition nat0 : nat_conf := mkNat false [] 0 false false false [] false.
Definition grant (src ports : bytes) (timeout now : Z) (s : state machine) : outcome (state machine) :=
  process_spa_request machine (run_iptables ipt0) conf0 (fun _ => None) nat0 (req src ports timeout) now s.
Definition check (all : bool) (now : Z) (s : state machine) : outcome (state machine) :=
  check_firewall_rules machine (run_iptables ipt0) conf0 all now s.
Definition st0 : state machine := ([chain0], (fw0, [])).
Definition rules_of (s : outcome (state machine)) (t c : bytes) : option (list rule) :=
  match s with Ok (_, (fw, _)) => fw t c | Fault => None end.
Ltac ands := repeat match goal with |- _ /\ _ => split end.
(** Rules of the examples: shown with an expiry, or without *)
Definition allow (src port e : bytes) : rule :=
  [$ "-p"; $ "6"; $ "-s"; src; $ "-d"; $ "0.0.0.0/0"; $ "--dport"; port; $ "-m"; $ "comment"; $ "--comment"; mark ++ e; $ "-j"; $ "ACCEPT"].
Definition plain (port : bytes) : rule := [$ "-p"; $ "6"; $ "--dport"; port; $ "-j"; $ "ACCEPT"].
Definition r22 : rule := allow ($ "10.0.0.1") ($ "22") ($ "1030").
Definition r80 : rule := allow ($ "10.0.0.2") ($ "80") ($ "1050").
Definition r99 : rule := allow ($ "10.0.0.3") ($ "99") ($ "1020").
Definition before (port src : bytes) : bytes := $ "-p 6 -s " ++ src ++ $ " -d 0.0.0.0/0 --dport " ++ port ++ $ " -m comment /* ".
Lemma r22_at : expires_at (show ipt0 r22) 1030.
Proof. apply (shown_at _ (before ($ "22") ($ "10.0.0.1")) ($ "1030") ($ " -j ACCEPT")); [reflexivity|reflexivity|discriminate| |discriminate]. repeat constructor; vm_compute; discriminate. Qed.
Lemma r80_at : expires_at (show ipt0 r80) 1050.
Proof. apply (shown_at _ (before ($ "80") ($ "10.0.0.2")) ($ "1050") ($ " -j ACCEPT")); [reflexivity|reflexivity|discriminate| |discriminate]. repeat constructor; vm_compute; discriminate. Qed.
Lemma r99_at : expires_at (show ipt0 r99) 1020.
Proof. apply (shown_at _ (before ($ "99") ($ "10.0.0.3")) ($ "1020") ($ " -j ACCEPT")); [reflexivity|reflexivity|discriminate| |discriminate]. repeat constructor; vm_compute; discriminate. Qed.
Lemma plain_never : unmarked (show ipt0 (plain ($ "25"))).
Proof. apply marks_none. reflexivity. Qed.
Lemma no_byte (x : Bytes.byte) s : memb x s = false -> ~ In x s.
Proof. intros M I. apply memb_In in I. congruence. Qed.

(** ** C35 A pass removes exactly the expired rules *)
(** The pass over all chains, every run of iptables doing its work: from each chain of the
    configuration exactly the rules whose expiry has come are removed, the others keep their
    order; no other chain changes.
    Missing for the full claim: chains whose name has fewer characters than their number,
    listings longer than the buffer, and runs of iptables that fail (see below). *)
Theorem C35_pass_partial : forall K cf now cs fw, iptables_ok K ->
  (forall j c, nth_error cs j = Some c -> checkable K (f_cmd cf) fw j c) ->
  exists cs' fw',
    check_firewall_rules machine (run_iptables K) cf true now (cs, (fw, [])) = Ok (cs', (fw', [])) /\
    Forall2 same_names cs cs' /\
    (forall c, In c cs -> c_table c <> [] -> cleaned K now fw fw' (c_table c) (c_to c)) /\
    (forall t n, ~ (exists c, In c cs /\ c_table c = t /\ c_to c = n) -> fw' t n = fw t n).
Proof. intros K cf now cs fw KO. exact (check_all K KO cf now cs fw). Qed.
Print Assumptions C35_pass_partial.
(** The quick pass, which goes only through chains with something to do, and iptables possibly
    killed or missing: still nothing but expired rules is removed. *)
Theorem C35_only_expired_partial : forall K cf all now cs fw fs, iptables_ok K -> Forall honest fs ->
  (forall j c, nth_error cs j = Some c -> checkable K (f_cmd cf) fw j c) ->
  exists cs' fw' fs',
    check_firewall_rules machine (run_iptables K) cf all now (cs, (fw, fs)) = Ok (cs', (fw', fs')) /\
    (forall t n, match fw t n with
                 | Some rs => exists rs', fw' t n = Some rs' /\ only_drops (expired K now) rs rs'
                 | None => fw' t n = None
                 end).
Proof.
  intros K cf all now cs fw fs KO HF CK.
  destruct (check_chains_honest K KO cf now all cs 0 fw fs HF CK) as (cs' & fw' & fs' & E & _ & S & _).
  exists cs', fw', fs'. split; [exact E|exact S].
Qed.
Print Assumptions C35_only_expired_partial.
(** If the bookkeeping says that something is due, the quick pass over the chain is complete. *)
Theorem C35_due_partial : forall K cf now i c fw rs, iptables_ok K ->
  names_fit (f_cmd cf) c -> Z.of_nat i < zlen (c_to c) ->
  fw (c_table c) (c_to c) = Some rs -> Forall (fun r => readable (show K r)) rs -> zlen (listing K (c_to c) rs) <= 4095 ->
  c_active c <> 0 -> c_next c <= now ->
  exists c' fw', check_chain machine (run_iptables K) cf false now i c (fw, []) = Ok (c', (fw', [])) /\
    cleaned K now fw fw' (c_table c) (c_to c) /\ elsewhere (c_table c) (c_to c) fw fw'.
Proof.
  intros K cf now i c fw rs KO NF I E R L A N.
  destruct (check_pass K KO cf false now i c fw [] rs NF I E R L (Forall_nil _)) as (c' & fw' & fs' & rs' & S1 & S2 & S3 & S4 & S5 & S6 & S7).
  destruct (S7 eq_refl) as [-> W]. exists c', fw'. split; [exact S1|]. split; [|exact S3]. exists rs, rs'. split; [exact E|]. split; [exact S4|]. apply W. right. auto.
Qed.
Print Assumptions C35_due_partial.

Definition fw1 : firewall := put_chain fw0 ($ "filter") ($ "FWKNOP_INPUT") (Some [r22; plain ($ "25"); r99; r80]).
Lemma chain0_fit : names_fit ($ "/sbin/iptables") chain0.
Proof. unfold names_fit. ands; try lit; try (vm_compute; discriminate). apply marks_none. reflexivity. Qed.
Example C35_ex : (forall j c, nth_error [chain0] j = Some c -> checkable ipt0 (f_cmd conf0) fw1 j c) /\
  rules_of (check true 1030 ([chain0], (fw1, []))) ($ "filter") ($ "FWKNOP_INPUT") = Some [plain ($ "25"); r80] /\
  rules_of (check true 1020 ([chain0], (fw1, []))) ($ "filter") ($ "FWKNOP_INPUT") = Some [r22; plain ($ "25"); r80].
Proof.
  split; [|split; vm_compute; reflexivity]. intros [|[|j]] c E; try discriminate. injection E as <-. right.
  split; [exact chain0_fit|]. split; [reflexivity|]. exists [r22; plain ($ "25"); r99; r80]. split; [reflexivity|]. split; [|vm_compute; discriminate].
  repeat (apply Forall_cons; [split; [apply no_byte; reflexivity|split; [apply no_byte; reflexivity|]]|]); [right|left|right|right|apply Forall_nil].
  - eexists; exact r22_at.
  - exact plain_never.
  - eexists; exact r99_at.
  - eexists; exact r80_at.
Qed.
(** iptables refuses the first deletion (exit status 1): the daemon takes it for done, and the
    numbers of the following deletions are wrong.  A rule without expiry is removed. *)
Theorem C35_refused_refuted : exists fs rs',
  rules_of (check true 1030 ([chain0], (put_chain fw0 ($ "filter") ($ "FWKNOP_INPUT") (Some [r22; plain ($ "25"); r99; r80]), fs)))
    ($ "filter") ($ "FWKNOP_INPUT") = Some rs' /\ ~ In (plain ($ "25")) rs' /\ In r99 rs' /\ ~ expired ipt0 1030 (plain ($ "25")).
Proof.
  exists [Runs; Refuses], [r22; r99; r80]. split; [vm_compute; reflexivity|].
  split; [intros [H|[H|[H|[]]]]; discriminate|]. split; [right; left; reflexivity|].
  intros (e & X & _). apply (P_fw4.unmarked_never _ _ plain_never X).
Qed.
Print Assumptions C35_refused_refuted.
(** The same after a deletion whose process is killed when it has done its work. *)
Theorem C35_killed_refuted : exists fs rs',
  rules_of (check true 1030 ([chain0], (put_chain fw0 ($ "filter") ($ "FWKNOP_INPUT") (Some [r22; plain ($ "25"); r99; r80]), fs)))
    ($ "filter") ($ "FWKNOP_INPUT") = Some rs' /\ ~ In r80 rs' /\ ~ expired ipt0 1030 r80.
Proof.
  exists [Runs; DiesAfter], [plain ($ "25"); r99]. split; [vm_compute; reflexivity|].
  split; [intros [H|[H|[]]]; discriminate|].
  intros (e & X & L). pose proof (P_fw4.expires_fun _ _ _ X r80_at). lia.
Qed.
Print Assumptions C35_killed_refuted.

(** ** C36 No rule outlives its expiry *)
(** In every run of the main loop, whatever happens to the firewall between the rounds: after
    every round whose number is a multiple of RULES_CHECK_THRESHOLD, no rule whose expiry has
    come is left in the chains of the configuration.
    Missing for the full claim: the rounds between those (refuted below). *)
Theorem C36_periodic_partial : forall K cf threshold h s0 ctr s cs fw now, iptables_ok K -> 0 < threshold ->
  rounds K cf threshold h (0, s0) = Ok (ctr, s) -> (zlen h + 1) mod threshold = 0 ->
  (forall j c, nth_error cs j = Some c -> checkable K (f_cmd cf) fw j c) ->
  exists cs' fw',
    check_round (run_iptables K) cf threshold now (ctr, (cs, (fw, []))) = Ok (0, (cs', (fw', []))) /\
    forall c rs, In c cs -> c_table c <> [] -> fw' (c_table c) (c_to c) = Some rs -> Forall (fun r => ~ expired K now r) rs.
Proof.
  intros K cf th h s0 ctr s cs fw now KO TP R M CK.
  destruct (periodic K cf th h s0 ctr cs fw s now KO TP R M CK) as (cs' & fw' & E & _ & C & _).
  exists cs', fw'. split; auto. intros c rs I T F. destruct (C c I T) as (r0 & r1 & _ & F' & W).
  rewrite F in F'. injection F' as ->. eapply without_clean; eauto.
Qed.
Print Assumptions C36_periodic_partial.
Example C36_ex : exists s, rounds ipt0 conf0 3 [((fun x => x), 1010); ((fun x => x), 1020)] (0, ([chain0], (fw1, []))) = Ok (2, s) /\
  match check_round (run_iptables ipt0) conf0 3 1030 (2, s) with
  | Ok (c, s') => c = 0 /\ rules_of (Ok s) ($ "filter") ($ "FWKNOP_INPUT") = Some [r22; plain ($ "25"); r99; r80] /\
                  rules_of (Ok s') ($ "filter") ($ "FWKNOP_INPUT") = Some [plain ($ "25"); r80]
  | Fault => False
  end.
Proof. eexists. split; [reflexivity|]. vm_compute. ands; reflexivity. Qed.
(** Grants at 1000, 1020 and 1031 of 30 seconds each, and quick passes at 1030 and 1050: the
    second rule, which expires at 1050, is still there afterwards. *)
Definition and_then (x : outcome (state machine)) (f : state machine -> outcome (state machine)) : outcome (state machine) :=
  match x with Ok s => f s | Fault => Fault end.
Definition lingering : outcome (state machine) :=
  and_then (grant ($ "10.0.0.1") ($ "tcp/22") 30 1000 st0) (fun s =>
  and_then (grant ($ "10.0.0.2") ($ "tcp/80") 30 1020 s) (fun s =>
  and_then (check false 1030 s) (fun s =>
  and_then (grant ($ "10.0.0.3") ($ "tcp/99") 30 1031 s) (check false 1050)))).
Theorem C36_lingering_refuted : exists rs,
  rules_of lingering ($ "filter") ($ "FWKNOP_INPUT") = Some rs /\ In r80 rs /\ expired ipt0 1050 r80.
Proof.
  exists [r80; allow ($ "10.0.0.3") ($ "99") ($ "1061")]. split; [vm_compute; reflexivity|]. split; [left; reflexivity|].
  exists 1050. split; [exact r80_at|lia].
Qed.
Print Assumptions C36_lingering_refuted.
(** A chain that is the fifth of the configuration and has a name of four characters is never
    gone through. *)
Definition short : chain := mkChain ($ "ACCEPT") ($ "filter") ($ "INPUT") 1 ($ "FWKN") 1 0.
Theorem C36_short_name_refuted : forall all now fw,
  check_firewall_rules machine (run_iptables ipt0) conf0 all now ([no_chain; no_chain; no_chain; no_chain; short], (fw, [])) =
    Ok ([no_chain; no_chain; no_chain; no_chain; short], (fw, [])).
Proof.
  intros all now fw. unfold check_firewall_rules. cbn [fst snd check_chains].
  assert (N : forall i m, check_chain machine (run_iptables ipt0) conf0 all now i no_chain m = Ok (no_chain, m)) by (intros i m; destruct all; reflexivity).
  rewrite !N. cbn [M_packet.bind]. rewrite !N. cbn [M_packet.bind]. rewrite !N. cbn [M_packet.bind]. rewrite !N. cbn [M_packet.bind].
  assert (S5 : check_chain machine (run_iptables ipt0) conf0 all now 4 short (fw, []) = Ok (short, (fw, []))).
  { unfold check_chain. destruct (negb all && _); [reflexivity|]. reflexivity. }
  rewrite S5. reflexivity.
Qed.
Print Assumptions C36_short_name_refuted.

(** ** C37 The rules made *)
(** An access request without NAT, whatever happens to the runs of iptables: no rule is lost or
    moved, and the rules and chains made are the jump rules, and in the input chain rules for
    the granted source and a requested protocol and port, expiring at now + timeout, and their
    counterparts in the output chain.  If iptables does its work, every requested pair is open
    afterwards. *)
Theorem C37_access_partial : forall K cf resolve nc d now pl cs fw fs, iptables_ok K ->
  word (d_use d) -> zlen (d_use d) <= 15 -> word (d_pkt_dst d) -> zlen (d_pkt_dst d) <= 15 ->
  0 <= now + d_timeout d < 4294967296 ->
  ~ wants_nat nc (d_type d) -> requested (d_remain d) pl ->
  names_fit (f_cmd cf) (chain_at 0 cs) -> (c_to (chain_at 1 cs) = [] \/ names_fit (f_cmd cf) (chain_at 1 cs)) ->
  let dst := if f_use_dst cf then d_pkt_dst d else $ "0.0.0.0/0" in
  exists cs' fw' fs',
    process_spa_request machine (run_iptables K) cf resolve nc d now (cs, (fw, fs)) = Ok (cs', (fw', fs')) /\
    Forall2 same_names cs cs' /\
    grown (access_chains (chain_at 0 cs) (chain_at 1 cs)) (access_rules (d_use d) dst (now + d_timeout d) (chain_at 0 cs) (chain_at 1 cs) pl) fw fw' /\
    (fs = [] -> fs' = [] /\ forall proto port, In (proto, port) pl ->
       (forall r, opens (d_use d) dst proto port (now + d_timeout d) (c_target (chain_at 0 cs)) r -> legal K r = true) ->
       exists r, opens (d_use d) dst proto port (now + d_timeout d) (c_target (chain_at 0 cs)) r /\ present fw' (chain_at 0 cs) r).
Proof.
  intros K cf resolve nc d now pl cs fw fs KO W1 L1 W2 L2 HE NN RQ N0 N1 dst.
  exact (spa_access K KO cf resolve nc d now W1 L1 W2 L2 HE pl cs fw fs NN RQ N0 N1).
Qed.
Print Assumptions C37_access_partial.
(** A request that is not a list of protocols and ports changes nothing. *)
Theorem C37_malformed : forall W exec cf resolve nc d now s, small_numbers (d_remain d) -> (forall pl, ~ requested (d_remain d) pl) ->
  process_spa_request W exec cf resolve nc d now s = Ok s.
Proof.
  intros W exec cf resolve nc d now s SM N. unfold process_spa_request. destruct (expand_acc_port_list (d_remain d)) as [pl|] eqn:E; auto.
  exfalso. exact (N pl (expand_port_list_inv _ _ SM E)).
Qed.
Print Assumptions C37_malformed.
(** A request for NAT: the rules made are those for its first protocol and port, for the granted
    source, the internal address and port of the stanza or else of the request, expiring at
    now + timeout; all of them are made if iptables does its work. *)
Theorem C37_nat_partial : forall K cf resolve nc d now pl proto port ip to cs fw fs, iptables_ok K ->
  word (d_use d) -> zlen (d_use d) <= 15 -> word (d_pkt_dst d) -> zlen (d_pkt_dst d) <= 15 ->
  0 <= now + d_timeout d < 4294967296 ->
  wants_nat nc (d_type d) -> requested (d_remain d) ((proto, port) :: pl) ->
  nat_goal nc (match d_nat d with Some n => n | None => [] end) ip to ->
  (local_nat (d_type d) -> names_fit (f_cmd cf) (chain_at 0 cs)) ->
  (forall j, (j = 2 \/ j = 3)%nat -> c_to (chain_at j cs) = [] \/ names_fit (f_cmd cf) (chain_at j cs)) ->
  (n_snat nc || f_snat cf = true -> forall j, (j = 4 \/ j = 5)%nat -> names_fit (f_cmd cf) (chain_at j cs)) ->
  zlen (n_snat_ip nc) <= 15 -> zlen (f_snat_ip cf) <= 15 ->
  let src := d_use d in
  let dst := if f_use_dst cf then d_pkt_dst d else $ "0.0.0.0/0" in
  let e := now + d_timeout d in
  exists i how cs' fw' fs', snat_how cf nc port i how /\
    process_spa_request machine (run_iptables K) cf resolve nc d now (cs, (fw, fs)) = Ok (cs', (fw', fs')) /\
    Forall2 same_names cs cs' /\
    grown (any_chain cs) (nat_rules cf nc (d_type d) cs src dst proto port ip to e i how) fw fw' /\
    (fs = [] -> fs' = [] /\ ((forall r, legal K r = true) ->
       (local_nat (d_type d) -> exists r, opens src dst proto to e (c_target (chain_at 0 cs)) r /\ present fw' (chain_at 0 cs) r) /\
       (~ local_nat (d_type d) -> c_to (chain_at 2 cs) <> [] ->
          exists r, forwards (n_forward_all nc) src proto to e (c_target (chain_at 2 cs)) r /\ present fw' (chain_at 2 cs) r) /\
       (n_no_dnat nc = false -> c_to (chain_at 3 cs) <> [] ->
          exists r, redirects (n_forward_all nc) src dst proto port e (c_target (chain_at 3 cs)) ip to r /\ present fw' (chain_at 3 cs) r) /\
       (n_snat nc || f_snat cf = true ->
          exists r, translates (n_forward_all nc) src proto ip to e (c_target (chain_at i cs)) how r /\ present fw' (chain_at i cs) r))).
Proof.
  intros K cf resolve nc d now pl proto port ip to cs fw fs KO W1 L1 W2 L2 HE WN RQ NG N0 N23 N45 LA LB src dst e.
  exact (spa_nat K KO cf resolve nc d now W1 L1 W2 L2 HE pl proto port ip to cs fw fs WN RQ NG N0 N23 N45 LA LB).
Qed.
Print Assumptions C37_nat_partial.

Lemma entry_short it proto port : zlen it <= 9 -> parse_proto_and_port it = Some (proto, port) -> port_entry it proto port.
Proof.
  intros L P. apply parse_port_inv; auto. intros p ds n E _ I. apply (small_numbers_short it L p ds [] n); auto. rewrite app_nil_r. exact E.
Qed.
Lemma requested_two : requested ($ "tcp/22,udp/53") [(6, 22); (17, 53)].
Proof.
  exists [$ "tcp/22"; $ "udp/53"]. split.
  - exists [$ "tcp/22"; $ "udp/53"]. split; [reflexivity|]. split; [discriminate|].
    split; [repeat (apply Forall_cons; [apply no_byte; reflexivity|]); apply Forall_nil|].
    assert (B : forall it, isspace (hd x00 it) = false -> exists sp, it = sp ++ it /\ Forall blank sp /\ ~ blank (hd x00 it)).
    { intros it B. exists []. split; [reflexivity|]. split; [constructor|]. intro X. rewrite <- isspace_blank in X. congruence. }
    apply Forall2_cons; [apply B; reflexivity|]. apply Forall2_cons; [apply B; reflexivity|]. apply Forall2_nil.
  - repeat (apply Forall2_cons; [split; [apply entry_short; [discriminate|reflexivity]|discriminate]|]). apply Forall2_nil.
Qed.
Example C37_access_ex : requested (d_remain (req ($ "10.0.0.1") ($ "tcp/22,udp/53") 30)) [(6, 22); (17, 53)] /\
  ~ wants_nat nat0 1 /\ names_fit ($ "/sbin/iptables") (chain_at 0 [chain0]) /\ c_to (chain_at 1 [chain0]) = [] /\
  rules_of (grant ($ "10.0.0.1") ($ "tcp/22,udp/53") 30 1000 st0) ($ "filter") ($ "FWKNOP_INPUT") =
    Some [r22; [$ "-p"; $ "17"; $ "-s"; $ "10.0.0.1"; $ "-d"; $ "0.0.0.0/0"; $ "--dport"; $ "53"; $ "-m"; $ "comment"; $ "--comment"; $ "_exp_1030"; $ "-j"; $ "ACCEPT"]] /\
  rules_of (grant ($ "10.0.0.1") ($ "tcp/22,udp/53") 30 1000 st0) ($ "filter") ($ "INPUT") =
    Some [[$ "-j"; $ "FWKNOP_INPUT"]; [$ "-j"; $ "ACCEPT"]].
Proof.
  split; [exact requested_two|]. split; [intros [[H|H]|[H|[H|H]]]; discriminate|]. split; [exact chain0_fit|].
  split; [reflexivity|]. split; vm_compute; reflexivity.
Qed.
Example C37_malformed_ex : forall pl, ~ requested ($ "tcp22") pl.
Proof.
  intros pl (items & L & F). pose proof (expand_port_list_ok _ _ _ L F). discriminate.
Qed.

(** Chains for NAT requests *)
Definition nat_chains : list chain :=
  [ chain0; no_chain;
    mkChain ($ "ACCEPT") ($ "filter") ($ "FORWARD") 1 ($ "FWKNOP_FORWARD") 0 0;
    mkChain ($ "DNAT") ($ "nat") ($ "PREROUTING") 1 ($ "FWKNOP_PREROUTING") 0 0;
    mkChain ($ "SNAT") ($ "nat") ($ "POSTROUTING") 1 ($ "FWKNOP_POSTROUTING") 0 0;
    mkChain ($ "MASQUERADE") ($ "nat") ($ "POSTROUTING") 1 ($ "FWKNOP_MASQUERADE") 0 0 ].
Definition fw2 : firewall := fun t c =>
  if bseq t ($ "nat") then
    if bseq c ($ "PREROUTING") || bseq c ($ "POSTROUTING") || bseq c ($ "FWKNOP_PREROUTING") then Some [] else None
  else if bseq t ($ "filter") then
    if bseq c ($ "FORWARD") || bseq c ($ "FWKNOP_FORWARD") then Some [] else None
  else None.
Definition nat_req (host : bytes) : spa_data :=
  M_cycle.mkSpa ($ "u") 0 ($ "3.0.0") 2 ($ "m") ($ "10.0.0.1") ($ "10.0.0.1") [] ($ "192.168.1.1") ($ "tcp/22,udp/53") (Some host) None 0 30 ($ "10.0.0.1").
Definition nat_grant (host : bytes) : outcome (state machine) :=
  process_spa_request machine (run_iptables ipt0) conf0 (fun _ => None) nat0 (nat_req host) 1000 (nat_chains, (fw2, [])).
Lemma chains_fit : forall j, (j = 0 \/ j = 2 \/ j = 3 \/ j = 4 \/ j = 5)%nat -> names_fit ($ "/sbin/iptables") (chain_at j nat_chains).
Proof.
  intros j [-> |[-> |[-> |[-> | ->]]]]; unfold names_fit; ands; try lit; try (vm_compute; discriminate); apply marks_none; reflexivity.
Qed.
Example C37_nat_ex :
  wants_nat nat0 2 /\ requested (d_remain (nat_req ($ "192.168.1.10,80"))) [(6, 22); (17, 53)] /\ nat_goal nat0 ($ "192.168.1.10,80") ($ "192.168.1.10") 80 /\
  (forall j, (j = 2 \/ j = 3)%nat -> names_fit ($ "/sbin/iptables") (chain_at j nat_chains)) /\
  rules_of (nat_grant ($ "192.168.1.10,80")) ($ "filter") ($ "FWKNOP_FORWARD") =
    Some [[$ "-p"; $ "6"; $ "-s"; $ "10.0.0.1"; $ "--dport"; $ "80"; $ "-m"; $ "comment"; $ "--comment"; $ "_exp_1030"; $ "-j"; $ "ACCEPT"]] /\
  rules_of (nat_grant ($ "192.168.1.10,80")) ($ "nat") ($ "FWKNOP_PREROUTING") =
    Some [[$ "-p"; $ "6"; $ "-s"; $ "10.0.0.1"; $ "-d"; $ "0.0.0.0/0"; $ "--dport"; $ "22"; $ "-m"; $ "comment"; $ "--comment"; $ "_exp_1030"; $ "-j"; $ "DNAT";
           $ "--to-destination"; $ "192.168.1.10:80"]].
Proof.
  split; [right; left; reflexivity|]. split; [exact requested_two|]. split.
  { split; [apply address_iff; [reflexivity|discriminate]|]. split; [lia|]. exists ($ "80"). split; [reflexivity|]. split; [discriminate|].
    split; [repeat constructor; vm_compute; discriminate|reflexivity]. }
  split; [intros j [-> | ->]; apply chains_fit; tauto|]. split; vm_compute; reflexivity.
Qed.
(** The second protocol and port of that request are granted nowhere. *)
Theorem C37_nat_second_refuted : exists s, nat_grant ($ "192.168.1.10,80") = Ok s /\
  forall c rs r, In c nat_chains -> fst (snd s) (c_table c) (c_to c) = Some rs -> In r rs -> ~ In ($ "17") r /\ ~ In ($ "53") r.
Proof.
  destruct (nat_grant ($ "192.168.1.10,80")) as [s|] eqn:E; [|vm_compute in E; discriminate]. exists s. split; [reflexivity|].
  assert (X : forall c, In c nat_chains -> match rules_of (Ok s) (c_table c) (c_to c) with
                None => True | Some rs => forallb (fun r => negb (existsb (bseq ($ "17")) r || existsb (bseq ($ "53")) r)) rs = true end).
  { rewrite <- E. clear E s. intros c. unfold nat_chains. intros [<-|[<-|[<-|[<-|[<-|[<-|[]]]]]]]; vm_compute; auto. }
  intros c rs r C F I. specialize (X c C). destruct s as [cs [fw fs]]. cbn [fst snd rules_of] in *. rewrite F in X.
  rewrite forallb_forall in X. specialize (X r I). apply negb_true_iff, orb_false_iff in X. destruct X as [X Y].
  split; intro Q; [assert (existsb (bseq ($ "17")) r = true)|assert (existsb (bseq ($ "53")) r = true)];
    try (apply existsb_exists; eexists; split; [exact Q|apply bseq_refl]); congruence.
Qed.
Print Assumptions C37_nat_second_refuted.
(** A host name of 70 characters in a NAT request passes the check of the message and is copied
    with its terminator into a buffer of 70 bytes. *)
Definition long_host : bytes := List.repeat "a"%byte 66 ++ $ ".com".
Theorem C37_nat_host_refuted :
  validate_nat_access_msg (long_host ++ $ ",80") = true /\ nat_grant (long_host ++ $ ",80") = Fault.
Proof. split; vm_compute; reflexivity. Qed.
Print Assumptions C37_nat_host_refuted.
