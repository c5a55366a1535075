(** Property C91: the firewalld back end of the daemon. *)
From Verif Require Import Bytes M_util M_message M_codec M_access M_cycle M_incoming M_packet M_fw M_fwinit
  S_text S_access S_incoming S_fw S_fwinit P_bytes P_util P_util2 P_fw P_fw2 P_fw3 P_fw4 P_fw5 P_fw6 P_fw7 P_fw8 P_fw10 P_fw11 P_fwinit P_fwinit2 P_fwinit3
  T_fw T_fwinit M_firewd S_firewd P_firewd P_firewd2 P_firewd3 P_firewd4 P_firewd5 P_firewd6.
From Coq Require Import Init.Byte List ZArith Bool Lia.
Import ListNotations.
Open Scope Z_scope.

(** ** C91 With firewalld the daemon opens and closes what it does with iptables *)
(** A request for access: the rules made are those for its source, protocols and ports, whatever
    happens to the commands; all are made if firewall-cmd does its work.
    Missing for the full claim: longer names, addresses and texts. *)
Theorem C91_access_partial : forall K F cf resolve nc d now pl cs fw fs, iptables_ok K -> firewalld_ok F ->
  word (d_use d) -> zlen (d_use d) <= 15 -> word (d_pkt_dst d) -> zlen (d_pkt_dst d) <= 15 ->
  0 <= now + d_timeout d < 4294967296 ->
  ~ wants_nat nc (d_type d) -> requested (d_remain d) pl ->
  names_pass (f_cmd cf) (chain_at 0 cs) -> (c_to (chain_at 1 cs) = [] \/ names_pass (f_cmd cf) (chain_at 1 cs)) ->
  let dst := if f_use_dst cf then d_pkt_dst d else $ "0.0.0.0/0" in
  exists cs' fw' fs',
    fd_process_spa_request machine (run_firewall_cmd K F) (through cf) resolve nc d now (cs, (fw, fs)) = Ok (cs', (fw', fs')) /\
    Forall2 same_names cs cs' /\
    grown (access_chains (chain_at 0 cs) (chain_at 1 cs)) (access_rules (d_use d) dst (now + d_timeout d) (chain_at 0 cs) (chain_at 1 cs) pl) fw fw' /\
    (fs = [] -> fs' = [] /\ forall proto port, In (proto, port) pl ->
       (forall r, opens (d_use d) dst proto port (now + d_timeout d) (c_target (chain_at 0 cs)) r -> legal K r = true) ->
       exists r, opens (d_use d) dst proto port (now + d_timeout d) (c_target (chain_at 0 cs)) r /\ present fw' (chain_at 0 cs) r).
Proof.
  intros K F cf resolve nc d now pl cs fw fs KO FO W1 L1 W2 L2 HE NN RQ N0 N1 dst. destruct (pass_exe _ _ N0) as [WE SE].
  assert (S := spa_access_sim K F FO cf WE SE resolve nc d now W1 W2 HE cs NN (pass_named _ _ N0)). specialize (S ltac:(destruct N1; [now left|right; eapply pass_named; eauto])).
  assert (R : forall gs, exists cs' fw' fs', process_spa_request machine (run_iptables (quietly K)) (beside cf) resolve nc d now (cs, (fw, gs)) = Ok (cs', (fw', fs')) /\ _)
    by (intros gs; exact (spa_access (quietly K) (quietly_ok K KO) (beside cf) resolve nc d now W1 L1 W2 L2 HE pl cs fw gs NN RQ (pass_fit _ _ N0) ltac:(destruct N1; [now left|right; now apply pass_fit]))).
  destruct (S fw fs) as (cs' & fw' & fs' & P & N & (gs & Q) & NIL). exists cs', fw', fs'. split; [exact P|]. split; [exact N|]. specialize (Q []). split.
  - destruct (R (gs ++ [])) as (cs2 & fw2 & fs2 & R1 & _ & G & _). pose proof (eq_trans (eq_sym Q) R1) as X. injection X as _ -> _. exact G.
  - intros E. destruct (NIL E) as [E' Q']. split; [exact E'|]. destruct (R []) as (cs2 & fw2 & fs2 & R1 & _ & _ & G). pose proof (eq_trans (eq_sym Q') R1) as X. injection X as _ -> _.
    exact (proj2 (G eq_refl)).
Qed.
Print Assumptions C91_access_partial.
(** A request for NAT, likewise: the rules for its first protocol and port. *)
Theorem C91_nat_partial : forall K F cf resolve nc d now pl proto port ip to cs fw fs, iptables_ok K -> firewalld_ok F -> exe_short (f_cmd cf) ->
  word (d_use d) -> zlen (d_use d) <= 15 -> word (d_pkt_dst d) -> zlen (d_pkt_dst d) <= 15 ->
  0 <= now + d_timeout d < 4294967296 ->
  wants_nat nc (d_type d) -> requested (d_remain d) ((proto, port) :: pl) ->
  nat_goal nc (match d_nat d with Some n => n | None => [] end) ip to ->
  (local_nat (d_type d) -> names_pass (f_cmd cf) (chain_at 0 cs)) ->
  (forall j, (j = 2 \/ j = 3)%nat -> c_to (chain_at j cs) = [] \/ names_pass (f_cmd cf) (chain_at j cs)) ->
  (n_snat nc || f_snat cf = true -> forall j, (j = 4 \/ j = 5)%nat -> names_pass (f_cmd cf) (chain_at j cs)) ->
  zlen (n_snat_ip nc) <= 15 -> zlen (f_snat_ip cf) <= 15 ->
  let src := d_use d in
  let dst := if f_use_dst cf then d_pkt_dst d else $ "0.0.0.0/0" in
  let e := now + d_timeout d in
  exists i how cs' fw' fs', snat_how cf nc port i how /\
    fd_process_spa_request machine (run_firewall_cmd K F) (through cf) resolve nc d now (cs, (fw, fs)) = Ok (cs', (fw', fs')) /\
    Forall2 same_names cs cs' /\
    grown (any_chain cs) (nat_rules cf nc (d_type d) cs src dst proto port ip to e i how) fw fw' /\
    (fs = [] -> fs' = [] /\ ((forall r, legal K r = true) ->
       (local_nat (d_type d) -> exists r, opens src dst proto to e (c_target (chain_at 0 cs)) r /\ present fw' (chain_at 0 cs) r) /\
       (~ local_nat (d_type d) -> c_to (chain_at 2 cs) <> [] ->
          exists r, forwards (n_forward_all nc) src proto to e (c_target (chain_at 2 cs)) r /\ present fw' (chain_at 2 cs) r) /\
       (n_no_dnat nc = false -> c_to (chain_at 3 cs) <> [] ->
          exists r, redirects (n_forward_all nc) src dst proto port e (c_target (chain_at 3 cs)) ip to r /\ present fw' (chain_at 3 cs) r) /\
       (n_snat nc || f_snat cf = true ->
          exists r, translates (n_forward_all nc) src proto ip to e (c_target (chain_at i cs)) how r /\ present fw' (chain_at i cs) r))).
Proof.
  intros K F cf resolve nc d now pl proto port ip to cs fw fs KO FO (WE & SE) W1 L1 W2 L2 HE WN RQ NG N0 N23 N45 LA LB src dst e.
  assert (S : sim (Forall2 same_names cs) (fun w => fd_process_spa_request machine (run_firewall_cmd K F) (through cf) resolve nc d now (cs, w))
     (fun w => process_spa_request machine (run_iptables (quietly K)) (beside cf) resolve nc d now (cs, w))).
  { apply (spa_nat_sim K F FO cf WE SE resolve nc d now W1 W2 HE cs ip to); auto.
    - intros X. eapply pass_named; eauto. - intros j J. destruct (N23 j J); [now left|right; eapply pass_named; eauto]. - intros X j J. eapply pass_named; eauto. }
  assert (P0 : local_nat (d_type d) -> names_fit (f_cmd (beside cf)) (chain_at 0 cs)) by (intros X; now apply pass_fit, N0).
  assert (P23 : forall j, (j = 2 \/ j = 3)%nat -> c_to (chain_at j cs) = [] \/ names_fit (f_cmd (beside cf)) (chain_at j cs)) by (intros j J; destruct (N23 j J); [now left|right; now apply pass_fit]).
  assert (P45 : n_snat nc || f_snat (beside cf) = true -> forall j, (j = 4 \/ j = 5)%nat -> names_fit (f_cmd (beside cf)) (chain_at j cs)) by (intros X j J; now apply pass_fit, N45).
  assert (R := fun gs => spa_nat (quietly K) (quietly_ok K KO) (beside cf) resolve nc d now W1 L1 W2 L2 HE pl proto port ip to cs fw gs WN RQ NG P0 P23 P45 LA LB).
  destruct (S fw fs) as (cs' & fw' & fs' & P & N & (gs & Q) & NIL). specialize (Q []). destruct fs as [|f fs].
  - destruct (NIL eq_refl) as [E' Q']. destruct (R []) as (i & how & cs2 & fw2 & fs2 & SH & R1 & _ & G & GN). pose proof (eq_trans (eq_sym Q') R1) as X. injection X as _ -> _.
    exists i, how, cs', fw2, fs'. split; [destruct SH; constructor; auto|]. split; [exact P|]. split; [exact N|]. split; [exact G|]. intros _. split; [exact E'|]. exact (proj2 (GN eq_refl)).
  - destruct (R (gs ++ [])) as (i & how & cs2 & fw2 & fs2 & SH & R1 & _ & G & _). pose proof (eq_trans (eq_sym Q) R1) as X. injection X as _ -> _.
    exists i, how, cs', fw2, fs'. split; [destruct SH; constructor; auto|]. split; [exact P|]. split; [exact N|]. split; [exact G|]. discriminate.
Qed.
Print Assumptions C91_nat_partial.
(** A complete pass removes exactly the expired rules of the daemon's chains. *)
Theorem C91_pass_partial : forall K F cf now cs fw, iptables_ok K -> firewalld_ok F ->
  (forall j c, nth_error cs j = Some c -> checkable K (f_cmd cf) fw j c) -> (forall c, In c cs -> c_table c <> [] -> names_short (f_cmd cf) c) ->
  exists cs' fw',
    fd_check_firewall_rules machine (run_firewall_cmd K F) (through cf) true now (cs, (fw, [])) = Ok (cs', (fw', [])) /\
    Forall2 same_names cs cs' /\
    (forall c, In c cs -> c_table c <> [] -> cleaned K now fw fw' (c_table c) (c_to c)) /\
    (forall t n, ~ (exists c, In c cs /\ c_table c = t /\ c_to c = n) -> fw' t n = fw t n).
Proof.
  intros K F cf now cs fw KO FO CK NS. unfold fd_check_firewall_rules, check_firewall_rules. cbn [fst snd].
  rewrite (check_chains_eq K KO F FO cf true now cs NS 0 fw []) by (auto using Forall_nil).
  apply (check_all (quietly K) (quietly_ok K KO) (beside cf) now cs fw). intros j c E. apply checkable_beside; [|now apply CK]. intros T. apply NS; [eapply nth_error_In; eauto|exact T].
Qed.
Print Assumptions C91_pass_partial.
(** The quick pass too, and firewall-cmd possibly killed or missing: nothing but expired rules
    is removed. *)
Theorem C91_only_expired_partial : forall K F cf all now cs fw fs, iptables_ok K -> firewalld_ok F -> Forall honest fs ->
  (forall j c, nth_error cs j = Some c -> checkable K (f_cmd cf) fw j c) -> (forall c, In c cs -> c_table c <> [] -> names_short (f_cmd cf) c) ->
  exists cs' fw' fs',
    fd_check_firewall_rules machine (run_firewall_cmd K F) (through cf) all now (cs, (fw, fs)) = Ok (cs', (fw', fs')) /\
    (forall t n, match fw t n with
                 | Some rs => exists rs', fw' t n = Some rs' /\ only_drops (expired K now) rs rs'
                 | None => fw' t n = None
                 end).
Proof.
  intros K F cf all now cs fw fs KO FO HF CK NS. unfold fd_check_firewall_rules, check_firewall_rules. cbn [fst snd].
  rewrite (check_chains_eq K KO F FO cf all now cs NS 0 fw fs) by auto.
  destruct (check_chains_honest (quietly K) (quietly_ok K KO) (beside cf) now all cs 0 fw fs HF) as (cs' & fw' & fs' & E & _ & S & _).
  { intros j c E. apply checkable_beside; [|now apply CK]. intros T. apply NS; [eapply nth_error_In; eauto|exact T]. }
  exists cs', fw', fs'. split; [exact E|exact S].
Qed.
Print Assumptions C91_only_expired_partial.
(** Whatever becomes of each run of firewall-cmd, in any history of making and removing the
    chains, granting requests and removing expired rules: all rules and chains that are not the
    daemon's are as before, in the same order. *)
Theorem C91_history_partial : forall K F cf evs cs fw fs cs' fw' fs', iptables_ok K -> firewalld_ok F -> all_pass (f_cmd cf) cs -> Forall (decent cf cs) evs ->
  fd_history K F cf evs (cs, (fw, fs)) = Ok (cs', (fw', fs')) -> same_rest cs fw fw'.
Proof.
  intros K F cf evs cs fw fs cs' fw' fs' KO FO A D Q. apply same_rest_bare. exact (proj1 (history_rest_fd K KO F FO cf evs cs fw fs cs' fw' fs' A D Q)).
Qed.
Print Assumptions C91_history_partial.
(** Stopping, if firewall-cmd does its work: what was the daemon's is gone, and nothing else. *)
Theorem C91_stop_partial : forall K F cf keep cs fw, iptables_ok K -> removes K -> firewalld_ok F -> all_pass (f_cmd cf) cs -> removable cs fw ->
  exists fw', fd_fw_cleanup machine (run_firewall_cmd K F) (through cf) keep true cs (fw, []) = Ok (fw', []) /\
    fd_fw_cleanup machine (run_firewall_cmd K F) (through cf) false false cs (fw, []) = Ok (fw', []) /\ stripped cs fw fw'.
Proof.
  intros K F cf keep cs fw KO KR FO A RM. destruct (stop_fd K KO KR F FO cf cs A fw RM) as (fw' & R & P). exists fw'. unfold fd_fw_cleanup.
  rewrite andb_false_r. cbn [andb]. split; [exact R|]. split; [exact R|]. now apply stripped_bare.
Qed.
Print Assumptions C91_stop_partial.
(** Hence after a whole run: the firewall is that before the run, less what was the daemon's. *)
Theorem C91_run_partial : forall K F cf evs cs fw fs cs' fw1, iptables_ok K -> removes K -> firewalld_ok F -> all_pass (f_cmd cf) cs -> Forall (decent cf cs) evs ->
  fd_history K F cf evs (cs, (fw, fs)) = Ok (cs', (fw1, [])) -> removable cs fw1 ->
  exists fw', fd_fw_cleanup machine (run_firewall_cmd K F) (through cf) false false cs (fw1, []) = Ok (fw', []) /\ stripped cs fw fw' /\
    ((forall t n, own cs t n -> fw t n = None) -> (forall t n rs r, fw t n = Some rs -> In r rs -> ~ jumps cs t n r) ->
     forall t n, fw' t n = fw t n).
Proof.
  intros K F cf evs cs fw fs cs' fw1 KO KR FO A D Q RM.
  pose proof (C91_history_partial K F cf evs cs fw fs cs' fw1 [] KO FO A D Q) as S. rewrite same_rest_bare in S.
  destruct (C91_stop_partial K F cf false cs fw1 KO KR FO A RM) as (fw' & _ & R & ST). exists fw'. split; [exact R|].
  rewrite stripped_bare in ST. assert (E : forall t n, fw' t n = bare cs fw t n) by (intros t n; rewrite S; apply ST).
  split; [now apply stripped_bare|]. intros N1 N2 t n. rewrite E. unfold bare. destruct (ownb cs t n) eqn:O.
  - symmetry. apply N1. now apply ownb_iff.
  - destruct (fw t n) as [rs|] eqn:FW; [|reflexivity]. f_equal. specialize (N2 t n rs). clear - N2 FW. specialize (fun r => N2 r FW). clear FW.
    induction rs as [|r rs IH]; [reflexivity|]. cbn [filter]. destruct (jumpb cs t n r) eqn:J.
    + exfalso. apply (N2 r (or_introl eq_refl)). now apply jumpb_iff.
    + cbn [negb]. f_equal. apply IH. intros x I. apply N2. now right.
Qed.
Print Assumptions C91_run_partial.
(** The start, if firewall-cmd does its work: the daemon's chains are there and hold no rule of
    an earlier run, the jump rules are there, and the rest of the firewall is as before. *)
Theorem C91_start_partial : forall K F cf check cs fw, iptables_ok K -> removes K -> firewalld_ok F -> all_pass (f_cmd cf) cs -> removable cs fw ->
  based cs fw (chain_at 0 cs) -> probes_work K cs fw (chain_at 0 cs) ->
  exists fw', fd_fw_initialize machine (run_firewall_cmd K F) (exit_status K F) (through cf) true check cs (fw, []) = Ok (Some true, (fw', [])) /\ same_rest cs fw fw' /\
    (forall c, In c cs -> in_use c -> exists rs, fw' (c_table c) (c_to c) = Some rs /\ Forall (jumps cs (c_table c) (c_to c)) rs) /\
    (forall c, In c cs -> legal K [$ "-j"; c_to c] = true -> c_jump c = 1 -> based cs fw c ->
       exists rs, fw' (c_table c) (c_from c) = Some rs /\ In [$ "-j"; c_to c] rs).
Proof.
  intros K F cf check cs fw KO KR FO A RM B PW. destruct (start_fd K KO KR F FO cf cs A check fw RM B PW) as (fw' & R & G & X). exists fw'.
  split; [exact R|]. split; [now apply same_rest_bare|exact X].
Qed.
Print Assumptions C91_start_partial.

(** *** Examples *)
Definition fd0 : firewalld := mkFd (fun _ => $ "Error: COMMAND_FAILED: '/usr/sbin/iptables' failed" ++ [x0a]) [x0a].
Definition cfd : fwconf := mkFw ($ "/bin/firewall-cmd") false false false [] false.
Lemma fd0_ok : firewalld_ok fd0.
Proof.
  split; [|split].
  - intros a. exists ($ ": '/usr/sbin/iptables' failed"). split; [reflexivity|]. split; apply no_byte; reflexivity.
  - apply no_byte. reflexivity.
  - apply marks_none. reflexivity.
Qed.
Lemma chain0_pass : names_pass (f_cmd cfd) chain0.
Proof. split; [|vm_compute; discriminate]. unfold names_fit. ands; try lit; try (vm_compute; discriminate). apply marks_none. reflexivity. Qed.
Lemma chain0_all : all_pass (f_cmd cfd) [chain0].
Proof.
  split; [split; [lit|vm_compute; discriminate]|]. split.
  - intros c [<-|[]]. right. exact (proj1 chain0_pass).
  - intros c [<-|[]] _. exact (proj2 chain0_pass).
Qed.
Definition fd_grant (ports : bytes) (s : state machine) : outcome (state machine) :=
  fd_process_spa_request machine (run_firewall_cmd ipt0 fd0) (through cfd) (fun _ => None) nat0 (req ($ "10.0.0.1") ports 30) 1000 s.
Example C91_access_ex : iptables_ok ipt0 /\ firewalld_ok fd0 /\ requested (d_remain (req ($ "10.0.0.1") ($ "tcp/22,udp/53") 30)) [(6, 22); (17, 53)] /\
  ~ wants_nat nat0 1 /\ names_pass (f_cmd cfd) (chain_at 0 [chain0]) /\ c_to (chain_at 1 [chain0]) = [] /\
  rules_of (fd_grant ($ "tcp/22,udp/53") st0) ($ "filter") ($ "FWKNOP_INPUT") =
    Some [r22; [$ "-p"; $ "17"; $ "-s"; $ "10.0.0.1"; $ "-d"; $ "0.0.0.0/0"; $ "--dport"; $ "53"; $ "-m"; $ "comment"; $ "--comment"; $ "_exp_1030"; $ "-j"; $ "ACCEPT"]] /\
  rules_of (fd_grant ($ "tcp/22,udp/53") st0) ($ "filter") ($ "INPUT") = Some [[$ "-j"; $ "FWKNOP_INPUT"]; [$ "-j"; $ "ACCEPT"]].
Proof.
  split; [exact ipt0_ok|]. split; [exact fd0_ok|]. split; [exact requested_two|]. split; [intros [[H|H]|[H|[H|H]]]; discriminate|]. split; [exact chain0_pass|].
  split; [reflexivity|]. split; vm_compute; reflexivity.
Qed.
Lemma nat_chains_pass : all_pass (f_cmd cfd) nat_chains.
Proof.
  split; [split; [lit|vm_compute; discriminate]|].
  assert (X : forall c, In c nat_chains -> c <> no_chain -> names_pass (f_cmd cfd) c).
  { intros c I N. unfold nat_chains in I. cbn [In] in I. destruct I as [<-|[<-|[<-|[<-|[<-|[<-|[]]]]]]]; [exact chain0_pass|contradiction| | | |];
      (split; [|vm_compute; discriminate]); unfold names_fit; ands; try lit; try (vm_compute; discriminate); apply marks_none; reflexivity. }
  assert (D : forall c, In c nat_chains -> c = no_chain \/ c <> no_chain).
  { intros c I. unfold nat_chains in I. cbn [In] in I. destruct I as [<-|[<-|[<-|[<-|[<-|[<-|[]]]]]]]; [right; discriminate|now left|right; discriminate..]. }
  split.
  - intros c I. destruct (D c I) as [-> |N]; [left; repeat split|right; exact (proj1 (X c I N))].
  - intros c I U. apply X; [exact I|]. intros ->. apply U. reflexivity.
Qed.
Definition fd_nat (host : bytes) : outcome (state machine) :=
  fd_process_spa_request machine (run_firewall_cmd ipt0 fd0) (through cfd) (fun _ => None) nat0 (nat_req host) 1000 (nat_chains, (fw2, [])).
Example C91_nat_ex : exe_short (f_cmd cfd) /\ wants_nat nat0 2 /\ requested (d_remain (nat_req ($ "192.168.1.10,80"))) [(6, 22); (17, 53)] /\
  nat_goal nat0 ($ "192.168.1.10,80") ($ "192.168.1.10") 80 /\
  rules_of (fd_nat ($ "192.168.1.10,80")) ($ "filter") ($ "FWKNOP_FORWARD") =
    Some [[$ "-p"; $ "6"; $ "-s"; $ "10.0.0.1"; $ "--dport"; $ "80"; $ "-m"; $ "comment"; $ "--comment"; $ "_exp_1030"; $ "-j"; $ "ACCEPT"]] /\
  rules_of (fd_nat ($ "192.168.1.10,80")) ($ "nat") ($ "FWKNOP_PREROUTING") =
    Some [[$ "-p"; $ "6"; $ "-s"; $ "10.0.0.1"; $ "-d"; $ "0.0.0.0/0"; $ "--dport"; $ "22"; $ "-m"; $ "comment"; $ "--comment"; $ "_exp_1030"; $ "-j"; $ "DNAT";
           $ "--to-destination"; $ "192.168.1.10:80"]].
Proof.
  destruct C37_nat_ex as (A & B & C & _). split; [exact (proj1 nat_chains_pass)|]. split; [exact A|]. split; [exact B|]. split; [exact C|]. split; vm_compute; reflexivity.
Qed.
Definition fd_pass (all : bool) (now : Z) (s : state machine) : outcome (state machine) :=
  fd_check_firewall_rules machine (run_firewall_cmd ipt0 fd0) (through cfd) all now s.
Example C91_pass_ex : (forall j c, nth_error [chain0] j = Some c -> checkable ipt0 (f_cmd cfd) fw1 j c) /\ (forall c, In c [chain0] -> c_table c <> [] -> names_short (f_cmd cfd) c) /\
  rules_of (fd_pass true 1030 ([chain0], (fw1, []))) ($ "filter") ($ "FWKNOP_INPUT") = Some [plain ($ "25"); r80].
Proof.
  split; [|split; [|vm_compute; reflexivity]].
  - intros [|[|j]] c E; try discriminate. injection E as <-. right. split; [exact (proj1 chain0_pass)|]. split; [vm_compute; reflexivity|].
    eexists. split; [vm_compute; reflexivity|]. split; [|vm_compute; discriminate].
    assert (M : forall x e, expires_at x e -> memb x0a x = false -> memb x00 x = false -> readable x) by (intros x e X A B; split; [now apply no_byte|]; split; [now apply no_byte|]; right; eauto).
    apply Forall_cons; [apply (M _ _ r22_at); vm_compute; reflexivity|]. apply Forall_cons.
    { split; [apply no_byte; vm_compute; reflexivity|]. split; [apply no_byte; vm_compute; reflexivity|]. left. exact plain_never. }
    apply Forall_cons; [apply (M _ _ r99_at); vm_compute; reflexivity|]. apply Forall_cons; [apply (M _ _ r80_at); vm_compute; reflexivity|]. apply Forall_nil.
  - intros c [<-|[]] _. exact (proj2 chain0_pass).
Qed.
Example C91_start_ex : iptables_ok ipt0 /\ removes ipt0 /\ firewalld_ok fd0 /\ all_pass (f_cmd cfd) [chain0] /\ removable [chain0] fwi /\ based [chain0] fwi (chain_at 0 [chain0]) /\
  probes_work ipt0 [chain0] fwi (chain_at 0 [chain0]).
Proof. destruct C77_hyps_ex as (A & B & _ & C & D & E). split; [exact A|]. split; [exact B|]. split; [exact fd0_ok|]. split; [exact chain0_all|]. split; [exact C|]. split; [exact D|exact E]. Qed.
Example C91_story_ex : Forall (decent cfd [chain0]) story /\
  match fd_history ipt0 fd0 cfd story ([chain0], (fwi, [Runs; DiesBefore; DiesAfter; NoStart])) with
  | Ok (_, (fw, [])) => fw ($ "filter") ($ "INPUT") = Some [[$ "-j"; $ "FWKNOP_INPUT"]; [$ "-j"; $ "FWKNOP_INPUT"]; plain ($ "25"); [$ "-j"; $ "DROP"]] /\
      (exists rs, fw ($ "filter") ($ "FWKNOP_INPUT") = Some rs /\ zlen rs = 1) /\
      match fd_fw_cleanup machine (run_firewall_cmd ipt0 fd0) (through cfd) false false [chain0] (fw, []) with
      | Ok (fw', _) => fw' ($ "filter") ($ "INPUT") = Some [plain ($ "25"); [$ "-j"; $ "DROP"]] /\ fw' ($ "filter") ($ "FWKNOP_INPUT") = None
      | Fault => False
      end
  | _ => False
  end.
Proof. split; [exact C77_story_decent|]. vm_compute. split; [reflexivity|]. split; [|split; reflexivity]. eexists. split; reflexivity. Qed.

(** *** Refutations *)
Definition fd_start (cs : list chain) (m : machine) := fd_fw_initialize machine (run_firewall_cmd ipt0 fd0) (exit_status ipt0 fd0) (through cfd) true true cs m.
(** Inserting the probe rule fails; the daemon deletes the first rule of the chain all the same,
    which is a rule of the administrator. *)
Theorem C91_probe_refuted : exists fs fw' m,
  fd_start [chain0] (fw0, fs) = Ok (m, (fw', [])) /\ fw0 ($ "filter") ($ "INPUT") = Some [[$ "-j"; $ "ACCEPT"]] /\
  fw' ($ "filter") ($ "INPUT") = Some [] /\ ~ same_rest [chain0] fw0 fw'.
Proof.
  destruct (ended (fd_start [chain0] (fw0, [Refuses])) None) as (fw & R & E); [vm_compute; reflexivity|vm_compute; exact I|].
  exists [Refuses], fw, None. subst fw. split; [exact R|]. split; [reflexivity|]. split; [vm_compute; reflexivity|].
  rewrite same_rest_bare. intros E. specialize (E ($ "filter") ($ "INPUT")). vm_compute in E. discriminate.
Qed.
Print Assumptions C91_probe_refuted.
(** firewall-cmd is killed when the second probe rule is made: the start fails and leaves the
    rule, which accepts everything from 127.0.0.2. *)
Theorem C91_comment_refuted : exists fs fw' rs,
  fd_start [chain0] (fwi, fs) = Ok (Some false, (fw', [])) /\ fw' ($ "filter") ($ "INPUT") = Some (probe_comment chain0 :: rs) /\ ~ same_rest [chain0] fwi fw'.
Proof.
  destruct (ended (fd_start [chain0] (fwi, repeat Runs 12 ++ [DiesAfter])) (Some false)) as (fw & R & E); [vm_compute; reflexivity|vm_compute; reflexivity|].
  exists (repeat Runs 12 ++ [DiesAfter]), fw, [[$ "-j"; $ "FWKNOP_INPUT"]; plain ($ "25"); [$ "-j"; $ "DROP"]]. subst fw. split; [exact R|]. split; [vm_compute; reflexivity|].
  rewrite same_rest_bare. intros E. specialize (E ($ "filter") ($ "INPUT")). vm_compute in E. discriminate.
Qed.
Print Assumptions C91_comment_refuted.
(** A check whose process is killed is taken to say that there is no such rule: the permission
    is made a second time, and so is the jump to its chain. *)
Theorem C91_twice_refuted : exists fs s, fd_grant ($ "tcp/22") ([chain0], (fwi, fs)) = Ok s /\ snd (snd s) = [] /\ fwi ($ "filter") ($ "FWKNOP_INPUT") = Some [r22] /\
  fst (snd s) ($ "filter") ($ "FWKNOP_INPUT") = Some [r22; r22] /\
  fst (snd s) ($ "filter") ($ "INPUT") = Some [[$ "-j"; $ "FWKNOP_INPUT"]; [$ "-j"; $ "FWKNOP_INPUT"]; plain ($ "25"); [$ "-j"; $ "DROP"]].
Proof.
  exists [Runs; DiesBefore; Runs; DiesBefore]. destruct (fd_grant ($ "tcp/22") ([chain0], (fwi, [Runs; DiesBefore; Runs; DiesBefore]))) as [s|] eqn:E; [|vm_compute in E; discriminate].
  exists s. split; [reflexivity|]. change s with (of_ok st0 (Ok s)). rewrite <- E. split; [vm_compute; reflexivity|]. split; [reflexivity|]. split; vm_compute; reflexivity.
Qed.
Print Assumptions C91_twice_refuted.
