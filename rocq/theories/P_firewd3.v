(** The firewalld back end beside the iptables back end: requests. *)
From Verif Require Import Bytes M_util M_message M_codec M_access M_cycle M_incoming M_packet M_fw M_fwinit
  S_text S_access S_incoming S_fw S_fwinit P_bytes P_util P_util2 P_access P_incoming5 P_fw P_fw2 P_fw6 P_fw7 P_fw8 P_fw9 P_fw10 P_fwinit P_fwinit2 P_fwinit3
  M_firewd S_firewd P_firewd P_firewd2.
From Coq Require Import Init.Byte List ZArith Bool Lia.
Import ListNotations.
Open Scope Z_scope.

Section Side.
Variable K : iptables.
Variable F : firewalld.
Hypothesis FO : firewalld_ok F.
Variable cf : fwconf.
Hypothesis WE : word (f_cmd cf).
Hypothesis SE : zlen (f_cmd cf) <= 71.
Notation fd := (run_firewall_cmd K F).
Notation ip := (run_iptables (quietly K)).
Notation cd := (through cf).
Notation ci := (beside cf).
Notation names cs := (Forall2 same_names cs).
Variables src dst : bytes.
Hypothesis WS : word src.
Hypothesis WD : word dst.
Variables e now : Z.

Lemma names_at j cs0 cs : names cs0 cs -> c_to (chain_at j cs0) = [] \/ named (chain_at j cs0) -> c_to (chain_at j cs) = [] \/ named (chain_at j cs).
Proof.
  intros N H. pose proof (nth_names j _ _ N) as S. destruct H as [H|H]; [left|right; eapply named_same; eauto].
  destruct S as (_ & _ & _ & _ & ->). exact H.
Qed.
Lemma named_at j cs0 cs : names cs0 cs -> named (chain_at j cs0) -> named (chain_at j cs).
Proof. intros N H. eapply named_same; [apply (nth_names j _ _ N)|exact H]. Qed.
Lemma used_to c : c_to c = [] \/ named c -> zlen (c_to c) =? 0 = false -> named c.
Proof. intros [H|H] Z; [rewrite H in Z; discriminate|exact H]. Qed.
Lemma expire_blanks target : word target -> blanks (expire_args e target) <= 6.
Proof. intros W. unfold expire_args, EXPIRE_COMMENT_PREFIX. blank_ok. Qed.

Lemma open_sim cs0 pl : named (chain_at 0 cs0) -> (c_to (chain_at 1 cs0) = [] \/ named (chain_at 1 cs0)) ->
  forall cs, names cs0 cs -> sim (names cs0) (fun w => fd_open_ports machine fd cd src dst pl e now (cs, w)) (fun w => open_ports machine ip ci src dst pl e now (cs, w)).
Proof.
  intros N0 N1. induction pl as [|[proto port] pl IH]; intros cs N; cbn [fd_open_ports open_ports]; [now apply sim_ret|]. cbn zeta. cbn [fst].
  pose proof (named_at 0 _ _ N N0) as M0. pose proof M0 as (W1 & W2 & W3 & W4 & L).
  apply (sim_bind (names cs) (names cs0) (fun w => firewd_rule machine fd cd 0 (RULE_ARGS (c_table (chain_at 0 cs)) proto src dst port e (c_target (chain_at 0 cs))) e now (cs, w))
    (fun w => ipt_rule machine ip ci 0 (RULE_ARGS (c_table (chain_at 0 cs)) proto src dst port e (c_target (chain_at 0 cs))) e now (cs, w))).
  { apply rule_sim; auto. unfold RULE_ARGS. pose proof (expire_blanks _ W4). blank_ok. }
  intros cs1 N2. assert (N3 : names cs0 cs1) by (eapply names_trans; eauto). cbn [fst].
  apply (sim_bind (names cs0) (names cs0)
    (fun w => if negb (zlen (c_to (chain_at 1 cs1)) =? 0) then firewd_rule machine fd cd 1 (OUT_RULE_ARGS (c_table (chain_at 1 cs1)) proto src dst port e (c_target (chain_at 1 cs1))) e now (cs1, w) else Ok (cs1, w))
    (fun w => if negb (zlen (c_to (chain_at 1 cs1)) =? 0) then ipt_rule machine ip ci 1 (OUT_RULE_ARGS (c_table (chain_at 1 cs1)) proto src dst port e (c_target (chain_at 1 cs1))) e now (cs1, w) else Ok (cs1, w))).
  { destruct (zlen (c_to (chain_at 1 cs1)) =? 0) eqn:Z; cbn [negb]; [now apply sim_ret|].
    pose proof (used_to _ (names_at 1 _ _ N3 N1) Z) as M1. pose proof M1 as (V1 & V2 & V3 & V4 & L').
    apply (sim_weak (names cs1)); [|intros a H; eapply names_trans; eauto]. apply rule_sim; auto. unfold OUT_RULE_ARGS. pose proof (expire_blanks _ V4). blank_ok. }
  intros cs2 N4. now apply IH.
Qed.

Variables proto port : Z.
Variable nip : bytes.
Hypothesis WI : word nip.
Variable to : Z.
Variable nc : nat_conf.

Lemma forward_sim cs : named (chain_at 2 cs) ->
  sim (names cs) (fun w => fd_forward_access_rule machine fd cd nc src proto to e now (cs, w)) (fun w => forward_access_rule machine ip ci nc src proto to e now (cs, w)).
Proof.
  intros M. pose proof M as (W1 & W2 & W3 & W4 & L). unfold fd_forward_access_rule, forward_access_rule. cbn [fst]. cbn zeta. apply rule_sim; auto.
  eapply Z.le_trans; [apply blanks_fmt|]. pose proof (expire_blanks _ W4). destruct (n_forward_all nc); [unfold FWD_ALL_RULE_ARGS|unfold FWD_RULE_ARGS]; blank_ok.
Qed.
Lemma dnat_sim cs : named (chain_at 3 cs) ->
  sim (names cs) (fun w => fd_dnat_rule machine fd cd nc src dst nip to proto port e now (cs, w)) (fun w => dnat_rule machine ip ci nc src dst nip to proto port e now (cs, w)).
Proof.
  intros M. pose proof M as (W1 & W2 & W3 & W4 & L). unfold fd_dnat_rule, dnat_rule. cbn [fst]. cbn zeta. apply rule_sim; auto.
  eapply Z.le_trans; [apply blanks_fmt|]. pose proof (expire_blanks _ W4). destruct (n_forward_all nc); [unfold DNAT_ALL_RULE_ARGS|unfold DNAT_RULE_ARGS]; blank_ok.
Qed.
Hypothesis LN : zlen (n_snat_ip nc) <= 15.
Hypothesis LF : zlen (f_snat_ip cf) <= 15.
Lemma how_blanks : blanks (snd (snat_target cf nc port)) <= 2 /\ (fst (snat_target cf nc port) = 4%nat \/ fst (snat_target cf nc port) = 5%nat).
Proof.
  assert (ST : forall a, is_valid_ipv4_addr a (zlen a) = true -> zlen a <= 15 -> blanks (snprintf (SNAT_TARGET_BUFSIZE - 1) ($ "--to-source " ++ a)) <= 2).
  { intros a V L. destruct (address_word a (address_iff a V L)) as [W _]. unfold snprintf. eapply Z.le_trans; [apply blanks_take|]. blank_ok. }
  unfold snat_target. cbv zeta.
  destruct (n_snat nc && is_valid_ipv4_addr (n_snat_ip nc) (zlen (n_snat_ip nc))) eqn:B1.
  { apply andb_true_iff in B1. destruct B1 as [_ B1]. cbn [fst snd]. split; [now apply ST|now left]. }
  destruct (negb (n_forward_all nc) && n_snat nc && n_masq nc).
  { cbn [fst snd]. split; [|now right]. blank_ok. }
  destruct (is_valid_ipv4_addr (f_snat_ip cf) (zlen (f_snat_ip cf))) eqn:B3.
  { cbn [fst snd]. split; [now apply ST|now left]. }
  cbn [fst snd]. split; [|now right]. destruct (n_forward_all nc); blank_ok.
Qed.
Lemma snat_sim cs : (forall j, (j = 4 \/ j = 5)%nat -> named (chain_at j cs)) ->
  sim (names cs) (fun w => fd_snat_rule machine fd cd nc src nip to proto port e now (cs, w)) (fun w => snat_rule machine ip ci nc src nip to proto port e now (cs, w)).
Proof.
  intros NM. unfold fd_snat_rule, snat_rule. change (snat_target cd nc port) with (snat_target cf nc port). change (snat_target ci nc port) with (snat_target cf nc port).
  destruct how_blanks as [B I]. destruct (snat_target cf nc port) as [i how]. cbn [fst snd] in *.
  pose proof (NM i I) as M. pose proof M as (W1 & W2 & W3 & W4 & L). cbn zeta. apply rule_sim; auto.
  eapply Z.le_trans; [apply blanks_fmt|]. pose proof (expire_blanks _ W4). destruct (n_forward_all nc); [unfold SNAT_ALL_RULE_ARGS|unfold SNAT_RULE_ARGS]; blank_ok.
Qed.
End Side.

Section Request.
Variable K : iptables.
Variable F : firewalld.
Hypothesis FO : firewalld_ok F.
Variable cf : fwconf.
Hypothesis WE : word (f_cmd cf).
Hypothesis SE : zlen (f_cmd cf) <= 71.
Notation fd := (run_firewall_cmd K F).
Notation ip := (run_iptables (quietly K)).
Notation cd := (through cf).
Notation ci := (beside cf).
Notation names cs := (Forall2 same_names cs).
Variable resolve : bytes -> option bytes.
Variable nc : nat_conf.
Variable d : spa_data.
Variable now : Z.
Hypothesis WS : word (d_use d).
Hypothesis WD : word (d_pkt_dst d).
Hypothesis HE : 0 <= now + d_timeout d < 4294967296.

Lemma dst_words : word (if f_use_dst cf then d_pkt_dst d else IPT_ANY_IP).
Proof. destruct (f_use_dst cf); [exact WD|]. unfold IPT_ANY_IP. lit. Qed.
Lemma spa_access_sim cs : ~ wants_nat nc (d_type d) -> named (chain_at 0 cs) -> (c_to (chain_at 1 cs) = [] \/ named (chain_at 1 cs)) ->
  sim (names cs) (fun w => fd_process_spa_request machine fd cd resolve nc d now (cs, w)) (fun w => process_spa_request machine ip ci resolve nc d now (cs, w)).
Proof.
  intros NN N0 N1. unfold fd_process_spa_request, process_spa_request. destruct (expand_acc_port_list (d_remain d)) as [[|[proto port] pl]|]; try apply sim_ret, P_fwinit2.names_refl.
  cbv zeta. destruct (_ || n_force nc) eqn:B; [exfalso; exact (NN (proj2 (wants_nat_iff nc d now HE) B))|].
  change (f_use_dst cd) with (f_use_dst cf). change (f_use_dst ci) with (f_use_dst cf).
  apply open_sim; auto using P_fwinit2.names_refl. apply dst_words.
Qed.
Lemma spa_nat_sim cs nip to : wants_nat nc (d_type d) -> nat_goal nc (match d_nat d with Some n => n | None => [] end) nip to ->
  (local_nat (d_type d) -> named (chain_at 0 cs)) ->
  (forall j, (j = 2 \/ j = 3)%nat -> c_to (chain_at j cs) = [] \/ named (chain_at j cs)) ->
  (n_snat nc || f_snat cf = true -> forall j, (j = 4 \/ j = 5)%nat -> named (chain_at j cs)) ->
  zlen (n_snat_ip nc) <= 15 -> zlen (f_snat_ip cf) <= 15 ->
  sim (names cs) (fun w => fd_process_spa_request machine fd cd resolve nc d now (cs, w)) (fun w => process_spa_request machine ip ci resolve nc d now (cs, w)).
Proof.
  intros WN NG N0 N23 N45 LN LF. destruct (address_word nip (proj1 NG)) as [WI _]. pose proof dst_words as DW.
  unfold fd_process_spa_request, process_spa_request. destruct (expand_acc_port_list (d_remain d)) as [[|[proto port] pl]|]; try apply sim_ret, P_fwinit2.names_refl.
  cbv zeta. change (f_use_dst cd) with (f_use_dst cf). change (f_use_dst ci) with (f_use_dst cf). change (f_snat cd) with (f_snat cf). change (f_snat ci) with (f_snat cf).
  set (dst := if f_use_dst cf then d_pkt_dst d else IPT_ANY_IP) in *. set (e := u32 (now + d_timeout d)).
  rewrite (proj1 (wants_nat_iff nc d now HE) WN). rewrite !(nat_address_ok _ _ _ _ _ _ NG). cbn [bind]. cbn [fst].
  set (lc := (d_type d =? FKO_LOCAL_NAT_ACCESS_MSG) || (d_type d =? FKO_CLIENT_TIMEOUT_LOCAL_NAT_ACCESS_MSG)).
  apply (sim_bind (names cs) (names cs)
    (fun w => if lc then firewd_rule machine fd cd 0 (RULE_ARGS (c_table (chain_at 0 cs)) proto (d_use d) dst to e (c_target (chain_at 0 cs))) e now (cs, w)
      else if negb (zlen (c_to (chain_at 2 cs)) =? 0) then fd_forward_access_rule machine fd cd nc (d_use d) proto to e now (cs, w) else Ok (cs, w))
    (fun w => if lc then ipt_rule machine ip ci 0 (RULE_ARGS (c_table (chain_at 0 cs)) proto (d_use d) dst to e (c_target (chain_at 0 cs))) e now (cs, w)
      else if negb (zlen (c_to (chain_at 2 cs)) =? 0) then forward_access_rule machine ip ci nc (d_use d) proto to e now (cs, w) else Ok (cs, w))).
  { destruct lc eqn:LC.
    - pose proof (N0 (proj2 (local_iff d now HE) LC)) as M. pose proof M as (W1 & W2 & W3 & W4 & L). apply rule_sim; auto. unfold RULE_ARGS. pose proof (expire_blanks e _ W4). blank_ok.
    - destruct (zlen (c_to (chain_at 2 cs)) =? 0) eqn:Z; cbn [negb]; [apply sim_ret, P_fwinit2.names_refl|]. apply forward_sim; auto. apply used_to; auto. }
  intros cs1 N1. cbn [fst].
  apply (sim_bind (names cs) (names cs)
    (fun w => if negb (zlen (c_to (chain_at 3 cs1)) =? 0) && negb (n_no_dnat nc) then fd_dnat_rule machine fd cd nc (d_use d) dst nip to proto port e now (cs1, w) else Ok (cs1, w))
    (fun w => if negb (zlen (c_to (chain_at 3 cs1)) =? 0) && negb (n_no_dnat nc) then dnat_rule machine ip ci nc (d_use d) dst nip to proto port e now (cs1, w) else Ok (cs1, w))).
  { destruct (zlen (c_to (chain_at 3 cs1)) =? 0) eqn:Z; cbn [negb andb]; [now apply sim_ret|]. destruct (negb (n_no_dnat nc)); [|now apply sim_ret].
    apply (sim_weak (names cs1)); [|intros a H; eapply names_trans; eauto]. apply dnat_sim; auto. apply used_to; auto. eapply names_at; eauto. }
  intros cs2 N2. destruct (n_snat nc || f_snat cf) eqn:SN; [|now apply sim_ret].
  apply (sim_weak (names cs2)); [|intros a H; eapply names_trans; eauto]. apply snat_sim; auto. intros j J. eapply named_at; eauto.
Qed.
End Request.
